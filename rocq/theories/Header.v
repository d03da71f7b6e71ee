(** Generated by tools/translate.py from neon_sim.h: every function declaration,
    as (name, return type, parameter types, line). *)
From Coq Require Import ZArith List String.
From Verif Require Import Types Syntax.
Import ListNotations.
Local Open Scope string_scope.

Definition sv := TScal.
Definition header : list (string * ty * list ty * Z) :=
  [ ("vld1_s8", tvec I8 8, [TPtr I8], 472%Z);
    ("vld1_s16", tvec I16 4, [TPtr I16], 473%Z);
    ("vld1_s32", tvec I32 2, [TPtr I32], 474%Z);
    ("vld1_s64", tvec I64 1, [TPtr I64], 475%Z);
    ("vld1_u8", tvec U8 8, [TPtr U8], 476%Z);
    ("vld1_u16", tvec U16 4, [TPtr U16], 477%Z);
    ("vld1_u32", tvec U32 2, [TPtr U32], 478%Z);
    ("vld1_u64", tvec U64 1, [TPtr U64], 479%Z);
    ("vld1_f32", tvec F32 2, [TPtr F32], 480%Z);
    ("vld1_f64", tvec F64 1, [TPtr F64], 481%Z);
    ("vld1q_s8", tvec I8 16, [TPtr I8], 484%Z);
    ("vld1q_s16", tvec I16 8, [TPtr I16], 485%Z);
    ("vld1q_s32", tvec I32 4, [TPtr I32], 486%Z);
    ("vld1q_s64", tvec I64 2, [TPtr I64], 487%Z);
    ("vld1q_u8", tvec U8 16, [TPtr U8], 488%Z);
    ("vld1q_u16", tvec U16 8, [TPtr U16], 489%Z);
    ("vld1q_u32", tvec U32 4, [TPtr U32], 490%Z);
    ("vld1q_u64", tvec U64 2, [TPtr U64], 491%Z);
    ("vld1q_f32", tvec F32 4, [TPtr F32], 492%Z);
    ("vld1q_f64", tvec F64 2, [TPtr F64], 493%Z);
    ("vld1_lane_s8", tvec I8 8, [TPtr I8; tvec I8 8; TScal I32], 496%Z);
    ("vld1_lane_s16", tvec I16 4, [TPtr I16; tvec I16 4; TScal I32], 497%Z);
    ("vld1_lane_s32", tvec I32 2, [TPtr I32; tvec I32 2; TScal I32], 498%Z);
    ("vld1_lane_s64", tvec I64 1, [TPtr I64; tvec I64 1; TScal I32], 499%Z);
    ("vld1_lane_u8", tvec U8 8, [TPtr U8; tvec U8 8; TScal I32], 500%Z);
    ("vld1_lane_u16", tvec U16 4, [TPtr U16; tvec U16 4; TScal I32], 501%Z);
    ("vld1_lane_u32", tvec U32 2, [TPtr U32; tvec U32 2; TScal I32], 502%Z);
    ("vld1_lane_u64", tvec U64 1, [TPtr U64; tvec U64 1; TScal I32], 503%Z);
    ("vld1_lane_f32", tvec F32 2, [TPtr F32; tvec F32 2; TScal I32], 504%Z);
    ("vld1_lane_f64", tvec F64 1, [TPtr F64; tvec F64 1; TScal I32], 505%Z);
    ("vld1q_lane_s8", tvec I8 16, [TPtr I8; tvec I8 16; TScal I32], 508%Z);
    ("vld1q_lane_s16", tvec I16 8, [TPtr I16; tvec I16 8; TScal I32], 509%Z);
    ("vld1q_lane_s32", tvec I32 4, [TPtr I32; tvec I32 4; TScal I32], 510%Z);
    ("vld1q_lane_s64", tvec I64 2, [TPtr I64; tvec I64 2; TScal I32], 511%Z);
    ("vld1q_lane_u8", tvec U8 16, [TPtr U8; tvec U8 16; TScal I32], 512%Z);
    ("vld1q_lane_u16", tvec U16 8, [TPtr U16; tvec U16 8; TScal I32], 513%Z);
    ("vld1q_lane_u32", tvec U32 4, [TPtr U32; tvec U32 4; TScal I32], 514%Z);
    ("vld1q_lane_u64", tvec U64 2, [TPtr U64; tvec U64 2; TScal I32], 515%Z);
    ("vld1q_lane_f32", tvec F32 4, [TPtr F32; tvec F32 4; TScal I32], 516%Z);
    ("vld1q_lane_f64", tvec F64 2, [TPtr F64; tvec F64 2; TScal I32], 517%Z);
    ("vld1_dup_s8", tvec I8 8, [TPtr I8], 520%Z);
    ("vld1_dup_s16", tvec I16 4, [TPtr I16], 521%Z);
    ("vld1_dup_s32", tvec I32 2, [TPtr I32], 522%Z);
    ("vld1_dup_s64", tvec I64 1, [TPtr I64], 523%Z);
    ("vld1_dup_u8", tvec U8 8, [TPtr U8], 524%Z);
    ("vld1_dup_u16", tvec U16 4, [TPtr U16], 525%Z);
    ("vld1_dup_u32", tvec U32 2, [TPtr U32], 526%Z);
    ("vld1_dup_u64", tvec U64 1, [TPtr U64], 527%Z);
    ("vld1_dup_f32", tvec F32 2, [TPtr F32], 528%Z);
    ("vld1_dup_f64", tvec F64 1, [TPtr F64], 529%Z);
    ("vld1q_dup_s8", tvec I8 16, [TPtr I8], 532%Z);
    ("vld1q_dup_s16", tvec I16 8, [TPtr I16], 533%Z);
    ("vld1q_dup_s32", tvec I32 4, [TPtr I32], 534%Z);
    ("vld1q_dup_s64", tvec I64 2, [TPtr I64], 535%Z);
    ("vld1q_dup_u8", tvec U8 16, [TPtr U8], 536%Z);
    ("vld1q_dup_u16", tvec U16 8, [TPtr U16], 537%Z);
    ("vld1q_dup_u32", tvec U32 4, [TPtr U32], 538%Z);
    ("vld1q_dup_u64", tvec U64 2, [TPtr U64], 539%Z);
    ("vld1q_dup_f32", tvec F32 4, [TPtr F32], 540%Z);
    ("vld1q_dup_f64", tvec F64 2, [TPtr F64], 541%Z);
    ("vld2_s8", tvecs 2 I8 8, [TPtr I8], 544%Z);
    ("vld2_s16", tvecs 2 I16 4, [TPtr I16], 545%Z);
    ("vld2_s32", tvecs 2 I32 2, [TPtr I32], 546%Z);
    ("vld2_u8", tvecs 2 U8 8, [TPtr U8], 547%Z);
    ("vld2_u16", tvecs 2 U16 4, [TPtr U16], 548%Z);
    ("vld2_u32", tvecs 2 U32 2, [TPtr U32], 549%Z);
    ("vld2_f32", tvecs 2 F32 2, [TPtr F32], 550%Z);
    ("vld2_s64", tvecs 2 I64 1, [TPtr I64], 551%Z);
    ("vld2_u64", tvecs 2 U64 1, [TPtr U64], 552%Z);
    ("vld2_f64", tvecs 2 F64 1, [TPtr F64], 553%Z);
    ("vld2q_s8", tvecs 2 I8 16, [TPtr I8], 556%Z);
    ("vld2q_s16", tvecs 2 I16 8, [TPtr I16], 557%Z);
    ("vld2q_s32", tvecs 2 I32 4, [TPtr I32], 558%Z);
    ("vld2q_u8", tvecs 2 U8 16, [TPtr U8], 559%Z);
    ("vld2q_u16", tvecs 2 U16 8, [TPtr U16], 560%Z);
    ("vld2q_u32", tvecs 2 U32 4, [TPtr U32], 561%Z);
    ("vld2q_f32", tvecs 2 F32 4, [TPtr F32], 562%Z);
    ("vld2q_s64", tvecs 2 I64 2, [TPtr I64], 563%Z);
    ("vld2q_u64", tvecs 2 U64 2, [TPtr U64], 564%Z);
    ("vld2q_f64", tvecs 2 F64 2, [TPtr F64], 565%Z);
    ("vld2_lane_s16", tvecs 2 I16 4, [TPtr I16; tvecs 2 I16 4; TScal I32], 568%Z);
    ("vld2_lane_s32", tvecs 2 I32 2, [TPtr I32; tvecs 2 I32 2; TScal I32], 569%Z);
    ("vld2_lane_u16", tvecs 2 U16 4, [TPtr U16; tvecs 2 U16 4; TScal I32], 570%Z);
    ("vld2_lane_u32", tvecs 2 U32 2, [TPtr U32; tvecs 2 U32 2; TScal I32], 571%Z);
    ("vld2_lane_f32", tvecs 2 F32 2, [TPtr F32; tvecs 2 F32 2; TScal I32], 572%Z);
    ("vld2_lane_s8", tvecs 2 I8 8, [TPtr I8; tvecs 2 I8 8; TScal I32], 573%Z);
    ("vld2_lane_u8", tvecs 2 U8 8, [TPtr U8; tvecs 2 U8 8; TScal I32], 574%Z);
    ("vld2_lane_s64", tvecs 2 I64 1, [TPtr I64; tvecs 2 I64 1; TScal I32], 575%Z);
    ("vld2_lane_u64", tvecs 2 U64 1, [TPtr U64; tvecs 2 U64 1; TScal I32], 576%Z);
    ("vld2_lane_f64", tvecs 2 F64 1, [TPtr F64; tvecs 2 F64 1; TScal I32], 577%Z);
    ("vld2q_lane_s16", tvecs 2 I16 8, [TPtr I16; tvecs 2 I16 8; TScal I32], 580%Z);
    ("vld2q_lane_s32", tvecs 2 I32 4, [TPtr I32; tvecs 2 I32 4; TScal I32], 581%Z);
    ("vld2q_lane_u16", tvecs 2 U16 8, [TPtr U16; tvecs 2 U16 8; TScal I32], 582%Z);
    ("vld2q_lane_u32", tvecs 2 U32 4, [TPtr U32; tvecs 2 U32 4; TScal I32], 583%Z);
    ("vld2q_lane_f32", tvecs 2 F32 4, [TPtr F32; tvecs 2 F32 4; TScal I32], 584%Z);
    ("vld2q_lane_s8", tvecs 2 I8 16, [TPtr I8; tvecs 2 I8 16; TScal I32], 585%Z);
    ("vld2q_lane_u8", tvecs 2 U8 16, [TPtr U8; tvecs 2 U8 16; TScal I32], 586%Z);
    ("vld2q_lane_s64", tvecs 2 I64 2, [TPtr I64; tvecs 2 I64 2; TScal I32], 587%Z);
    ("vld2q_lane_u64", tvecs 2 U64 2, [TPtr U64; tvecs 2 U64 2; TScal I32], 588%Z);
    ("vld2q_lane_f64", tvecs 2 F64 2, [TPtr F64; tvecs 2 F64 2; TScal I32], 589%Z);
    ("vld2_dup_s8", tvecs 2 I8 8, [TPtr I8], 592%Z);
    ("vld2_dup_s16", tvecs 2 I16 4, [TPtr I16], 593%Z);
    ("vld2_dup_s32", tvecs 2 I32 2, [TPtr I32], 594%Z);
    ("vld2_dup_u8", tvecs 2 U8 8, [TPtr U8], 595%Z);
    ("vld2_dup_u16", tvecs 2 U16 4, [TPtr U16], 596%Z);
    ("vld2_dup_u32", tvecs 2 U32 2, [TPtr U32], 597%Z);
    ("vld2_dup_f32", tvecs 2 F32 2, [TPtr F32], 598%Z);
    ("vld2_dup_s64", tvecs 2 I64 1, [TPtr I64], 599%Z);
    ("vld2_dup_u64", tvecs 2 U64 1, [TPtr U64], 600%Z);
    ("vld2_dup_f64", tvecs 2 F64 1, [TPtr F64], 601%Z);
    ("vld3_s8", tvecs 3 I8 8, [TPtr I8], 604%Z);
    ("vld3_s16", tvecs 3 I16 4, [TPtr I16], 605%Z);
    ("vld3_s32", tvecs 3 I32 2, [TPtr I32], 606%Z);
    ("vld3_u8", tvecs 3 U8 8, [TPtr U8], 607%Z);
    ("vld3_u16", tvecs 3 U16 4, [TPtr U16], 608%Z);
    ("vld3_u32", tvecs 3 U32 2, [TPtr U32], 609%Z);
    ("vld3_f32", tvecs 3 F32 2, [TPtr F32], 610%Z);
    ("vld3_s64", tvecs 3 I64 1, [TPtr I64], 611%Z);
    ("vld3_u64", tvecs 3 U64 1, [TPtr U64], 612%Z);
    ("vld3_f64", tvecs 3 F64 1, [TPtr F64], 613%Z);
    ("vld3q_s8", tvecs 3 I8 16, [TPtr I8], 616%Z);
    ("vld3q_s16", tvecs 3 I16 8, [TPtr I16], 617%Z);
    ("vld3q_s32", tvecs 3 I32 4, [TPtr I32], 618%Z);
    ("vld3q_u8", tvecs 3 U8 16, [TPtr U8], 619%Z);
    ("vld3q_u16", tvecs 3 U16 8, [TPtr U16], 620%Z);
    ("vld3q_u32", tvecs 3 U32 4, [TPtr U32], 621%Z);
    ("vld3q_f32", tvecs 3 F32 4, [TPtr F32], 622%Z);
    ("vld3q_s64", tvecs 3 I64 2, [TPtr I64], 623%Z);
    ("vld3q_u64", tvecs 3 U64 2, [TPtr U64], 624%Z);
    ("vld3q_f64", tvecs 3 F64 2, [TPtr F64], 625%Z);
    ("vld3_lane_s16", tvecs 3 I16 4, [TPtr I16; tvecs 3 I16 4; TScal I32], 628%Z);
    ("vld3_lane_s32", tvecs 3 I32 2, [TPtr I32; tvecs 3 I32 2; TScal I32], 629%Z);
    ("vld3_lane_u16", tvecs 3 U16 4, [TPtr U16; tvecs 3 U16 4; TScal I32], 630%Z);
    ("vld3_lane_u32", tvecs 3 U32 2, [TPtr U32; tvecs 3 U32 2; TScal I32], 631%Z);
    ("vld3_lane_f32", tvecs 3 F32 2, [TPtr F32; tvecs 3 F32 2; TScal I32], 632%Z);
    ("vld3_lane_s8", tvecs 3 I8 8, [TPtr I8; tvecs 3 I8 8; TScal I32], 633%Z);
    ("vld3_lane_u8", tvecs 3 U8 8, [TPtr U8; tvecs 3 U8 8; TScal I32], 634%Z);
    ("vld3_lane_s64", tvecs 3 I64 1, [TPtr I64; tvecs 3 I64 1; TScal I32], 635%Z);
    ("vld3_lane_u64", tvecs 3 U64 1, [TPtr U64; tvecs 3 U64 1; TScal I32], 636%Z);
    ("vld3_lane_f64", tvecs 3 F64 1, [TPtr F64; tvecs 3 F64 1; TScal I32], 637%Z);
    ("vld3q_lane_s16", tvecs 3 I16 8, [TPtr I16; tvecs 3 I16 8; TScal I32], 640%Z);
    ("vld3q_lane_s32", tvecs 3 I32 4, [TPtr I32; tvecs 3 I32 4; TScal I32], 641%Z);
    ("vld3q_lane_u16", tvecs 3 U16 8, [TPtr U16; tvecs 3 U16 8; TScal I32], 642%Z);
    ("vld3q_lane_u32", tvecs 3 U32 4, [TPtr U32; tvecs 3 U32 4; TScal I32], 643%Z);
    ("vld3q_lane_f32", tvecs 3 F32 4, [TPtr F32; tvecs 3 F32 4; TScal I32], 644%Z);
    ("vld3q_lane_s8", tvecs 3 I8 16, [TPtr I8; tvecs 3 I8 16; TScal I32], 645%Z);
    ("vld3q_lane_u8", tvecs 3 U8 16, [TPtr U8; tvecs 3 U8 16; TScal I32], 646%Z);
    ("vld3q_lane_s64", tvecs 3 I64 2, [TPtr I64; tvecs 3 I64 2; TScal I32], 647%Z);
    ("vld3q_lane_u64", tvecs 3 U64 2, [TPtr U64; tvecs 3 U64 2; TScal I32], 648%Z);
    ("vld3q_lane_f64", tvecs 3 F64 2, [TPtr F64; tvecs 3 F64 2; TScal I32], 649%Z);
    ("vld3_dup_s8", tvecs 3 I8 8, [TPtr I8], 652%Z);
    ("vld3_dup_s16", tvecs 3 I16 4, [TPtr I16], 653%Z);
    ("vld3_dup_s32", tvecs 3 I32 2, [TPtr I32], 654%Z);
    ("vld3_dup_u8", tvecs 3 U8 8, [TPtr U8], 655%Z);
    ("vld3_dup_u16", tvecs 3 U16 4, [TPtr U16], 656%Z);
    ("vld3_dup_u32", tvecs 3 U32 2, [TPtr U32], 657%Z);
    ("vld3_dup_f32", tvecs 3 F32 2, [TPtr F32], 658%Z);
    ("vld3_dup_s64", tvecs 3 I64 1, [TPtr I64], 659%Z);
    ("vld3_dup_u64", tvecs 3 U64 1, [TPtr U64], 660%Z);
    ("vld3_dup_f64", tvecs 3 F64 1, [TPtr F64], 661%Z);
    ("vld4_s8", tvecs 4 I8 8, [TPtr I8], 664%Z);
    ("vld4_s16", tvecs 4 I16 4, [TPtr I16], 665%Z);
    ("vld4_s32", tvecs 4 I32 2, [TPtr I32], 666%Z);
    ("vld4_u8", tvecs 4 U8 8, [TPtr U8], 667%Z);
    ("vld4_u16", tvecs 4 U16 4, [TPtr U16], 668%Z);
    ("vld4_u32", tvecs 4 U32 2, [TPtr U32], 669%Z);
    ("vld4_f32", tvecs 4 F32 2, [TPtr F32], 670%Z);
    ("vld4_s64", tvecs 4 I64 1, [TPtr I64], 671%Z);
    ("vld4_u64", tvecs 4 U64 1, [TPtr U64], 672%Z);
    ("vld4_f64", tvecs 4 F64 1, [TPtr F64], 673%Z);
    ("vld4q_s8", tvecs 4 I8 16, [TPtr I8], 676%Z);
    ("vld4q_s16", tvecs 4 I16 8, [TPtr I16], 677%Z);
    ("vld4q_s32", tvecs 4 I32 4, [TPtr I32], 678%Z);
    ("vld4q_u8", tvecs 4 U8 16, [TPtr U8], 679%Z);
    ("vld4q_u16", tvecs 4 U16 8, [TPtr U16], 680%Z);
    ("vld4q_u32", tvecs 4 U32 4, [TPtr U32], 681%Z);
    ("vld4q_f32", tvecs 4 F32 4, [TPtr F32], 682%Z);
    ("vld4q_s64", tvecs 4 I64 2, [TPtr I64], 683%Z);
    ("vld4q_u64", tvecs 4 U64 2, [TPtr U64], 684%Z);
    ("vld4q_f64", tvecs 4 F64 2, [TPtr F64], 685%Z);
    ("vld4_lane_s16", tvecs 4 I16 4, [TPtr I16; tvecs 4 I16 4; TScal I32], 688%Z);
    ("vld4_lane_s32", tvecs 4 I32 2, [TPtr I32; tvecs 4 I32 2; TScal I32], 689%Z);
    ("vld4_lane_u16", tvecs 4 U16 4, [TPtr U16; tvecs 4 U16 4; TScal I32], 690%Z);
    ("vld4_lane_u32", tvecs 4 U32 2, [TPtr U32; tvecs 4 U32 2; TScal I32], 691%Z);
    ("vld4_lane_f32", tvecs 4 F32 2, [TPtr F32; tvecs 4 F32 2; TScal I32], 692%Z);
    ("vld4_lane_s8", tvecs 4 I8 8, [TPtr I8; tvecs 4 I8 8; TScal I32], 693%Z);
    ("vld4_lane_u8", tvecs 4 U8 8, [TPtr U8; tvecs 4 U8 8; TScal I32], 694%Z);
    ("vld4_lane_s64", tvecs 4 I64 1, [TPtr I64; tvecs 4 I64 1; TScal I32], 695%Z);
    ("vld4_lane_u64", tvecs 4 U64 1, [TPtr U64; tvecs 4 U64 1; TScal I32], 696%Z);
    ("vld4_lane_f64", tvecs 4 F64 1, [TPtr F64; tvecs 4 F64 1; TScal I32], 697%Z);
    ("vld4q_lane_s16", tvecs 4 I16 8, [TPtr I16; tvecs 4 I16 8; TScal I32], 700%Z);
    ("vld4q_lane_s32", tvecs 4 I32 4, [TPtr I32; tvecs 4 I32 4; TScal I32], 701%Z);
    ("vld4q_lane_u16", tvecs 4 U16 8, [TPtr U16; tvecs 4 U16 8; TScal I32], 702%Z);
    ("vld4q_lane_u32", tvecs 4 U32 4, [TPtr U32; tvecs 4 U32 4; TScal I32], 703%Z);
    ("vld4q_lane_f32", tvecs 4 F32 4, [TPtr F32; tvecs 4 F32 4; TScal I32], 704%Z);
    ("vld4q_lane_s8", tvecs 4 I8 16, [TPtr I8; tvecs 4 I8 16; TScal I32], 705%Z);
    ("vld4q_lane_u8", tvecs 4 U8 16, [TPtr U8; tvecs 4 U8 16; TScal I32], 706%Z);
    ("vld4q_lane_s64", tvecs 4 I64 2, [TPtr I64; tvecs 4 I64 2; TScal I32], 707%Z);
    ("vld4q_lane_u64", tvecs 4 U64 2, [TPtr U64; tvecs 4 U64 2; TScal I32], 708%Z);
    ("vld4q_lane_f64", tvecs 4 F64 2, [TPtr F64; tvecs 4 F64 2; TScal I32], 709%Z);
    ("vld4q_dup_s8", tvecs 4 I8 16, [TPtr I8], 712%Z);
    ("vld4q_dup_s16", tvecs 4 I16 8, [TPtr I16], 713%Z);
    ("vld4q_dup_s32", tvecs 4 I32 4, [TPtr I32], 714%Z);
    ("vld4q_dup_u8", tvecs 4 U8 16, [TPtr U8], 715%Z);
    ("vld4q_dup_u16", tvecs 4 U16 8, [TPtr U16], 716%Z);
    ("vld4q_dup_u32", tvecs 4 U32 4, [TPtr U32], 717%Z);
    ("vld4q_dup_f32", tvecs 4 F32 4, [TPtr F32], 718%Z);
    ("vld4q_dup_s64", tvecs 4 I64 2, [TPtr I64], 719%Z);
    ("vld4q_dup_u64", tvecs 4 U64 2, [TPtr U64], 720%Z);
    ("vld4q_dup_f64", tvecs 4 F64 2, [TPtr F64], 721%Z);
    ("vst1_s8", TVoid, [TPtr I8; tvec I8 8], 724%Z);
    ("vst1_s16", TVoid, [TPtr I16; tvec I16 4], 725%Z);
    ("vst1_s32", TVoid, [TPtr I32; tvec I32 2], 726%Z);
    ("vst1_s64", TVoid, [TPtr I64; tvec I64 1], 727%Z);
    ("vst1_u8", TVoid, [TPtr U8; tvec U8 8], 728%Z);
    ("vst1_u16", TVoid, [TPtr U16; tvec U16 4], 729%Z);
    ("vst1_u32", TVoid, [TPtr U32; tvec U32 2], 730%Z);
    ("vst1_u64", TVoid, [TPtr U64; tvec U64 1], 731%Z);
    ("vst1_f32", TVoid, [TPtr F32; tvec F32 2], 732%Z);
    ("vst1_f64", TVoid, [TPtr F64; tvec F64 1], 733%Z);
    ("vst1q_s8", TVoid, [TPtr I8; tvec I8 16], 736%Z);
    ("vst1q_s16", TVoid, [TPtr I16; tvec I16 8], 737%Z);
    ("vst1q_s32", TVoid, [TPtr I32; tvec I32 4], 738%Z);
    ("vst1q_s64", TVoid, [TPtr I64; tvec I64 2], 739%Z);
    ("vst1q_u8", TVoid, [TPtr U8; tvec U8 16], 740%Z);
    ("vst1q_u16", TVoid, [TPtr U16; tvec U16 8], 741%Z);
    ("vst1q_u32", TVoid, [TPtr U32; tvec U32 4], 742%Z);
    ("vst1q_u64", TVoid, [TPtr U64; tvec U64 2], 743%Z);
    ("vst1q_f32", TVoid, [TPtr F32; tvec F32 4], 744%Z);
    ("vst1q_f64", TVoid, [TPtr F64; tvec F64 2], 745%Z);
    ("vst1_lane_s8", TVoid, [TPtr I8; tvec I8 8; TScal I32], 748%Z);
    ("vst1_lane_s16", TVoid, [TPtr I16; tvec I16 4; TScal I32], 749%Z);
    ("vst1_lane_s32", TVoid, [TPtr I32; tvec I32 2; TScal I32], 750%Z);
    ("vst1_lane_s64", TVoid, [TPtr I64; tvec I64 1; TScal I32], 751%Z);
    ("vst1_lane_u8", TVoid, [TPtr U8; tvec U8 8; TScal I32], 752%Z);
    ("vst1_lane_u16", TVoid, [TPtr U16; tvec U16 4; TScal I32], 753%Z);
    ("vst1_lane_u32", TVoid, [TPtr U32; tvec U32 2; TScal I32], 754%Z);
    ("vst1_lane_u64", TVoid, [TPtr U64; tvec U64 1; TScal I32], 755%Z);
    ("vst1_lane_f32", TVoid, [TPtr F32; tvec F32 2; TScal I32], 756%Z);
    ("vst1_lane_f64", TVoid, [TPtr F64; tvec F64 1; TScal I32], 757%Z);
    ("vst1q_lane_s8", TVoid, [TPtr I8; tvec I8 16; TScal I32], 760%Z);
    ("vst1q_lane_s16", TVoid, [TPtr I16; tvec I16 8; TScal I32], 761%Z);
    ("vst1q_lane_s32", TVoid, [TPtr I32; tvec I32 4; TScal I32], 762%Z);
    ("vst1q_lane_s64", TVoid, [TPtr I64; tvec I64 2; TScal I32], 763%Z);
    ("vst1q_lane_u8", TVoid, [TPtr U8; tvec U8 16; TScal I32], 764%Z);
    ("vst1q_lane_u16", TVoid, [TPtr U16; tvec U16 8; TScal I32], 765%Z);
    ("vst1q_lane_u32", TVoid, [TPtr U32; tvec U32 4; TScal I32], 766%Z);
    ("vst1q_lane_u64", TVoid, [TPtr U64; tvec U64 2; TScal I32], 767%Z);
    ("vst1q_lane_f32", TVoid, [TPtr F32; tvec F32 4; TScal I32], 768%Z);
    ("vst1q_lane_f64", TVoid, [TPtr F64; tvec F64 2; TScal I32], 769%Z);
    ("vst2_s8", TVoid, [TPtr I8; tvecs 2 I8 8], 772%Z);
    ("vst2_s16", TVoid, [TPtr I16; tvecs 2 I16 4], 773%Z);
    ("vst2_s32", TVoid, [TPtr I32; tvecs 2 I32 2], 774%Z);
    ("vst2_u8", TVoid, [TPtr U8; tvecs 2 U8 8], 775%Z);
    ("vst2_u16", TVoid, [TPtr U16; tvecs 2 U16 4], 776%Z);
    ("vst2_u32", TVoid, [TPtr U32; tvecs 2 U32 2], 777%Z);
    ("vst2_f32", TVoid, [TPtr F32; tvecs 2 F32 2], 778%Z);
    ("vst2_s64", TVoid, [TPtr I64; tvecs 2 I64 1], 779%Z);
    ("vst2_u64", TVoid, [TPtr U64; tvecs 2 U64 1], 780%Z);
    ("vst2_f64", TVoid, [TPtr F64; tvecs 2 F64 1], 781%Z);
    ("vst2q_s8", TVoid, [TPtr I8; tvecs 2 I8 16], 784%Z);
    ("vst2q_s16", TVoid, [TPtr I16; tvecs 2 I16 8], 785%Z);
    ("vst2q_s32", TVoid, [TPtr I32; tvecs 2 I32 4], 786%Z);
    ("vst2q_u8", TVoid, [TPtr U8; tvecs 2 U8 16], 787%Z);
    ("vst2q_u16", TVoid, [TPtr U16; tvecs 2 U16 8], 788%Z);
    ("vst2q_u32", TVoid, [TPtr U32; tvecs 2 U32 4], 789%Z);
    ("vst2q_f32", TVoid, [TPtr F32; tvecs 2 F32 4], 790%Z);
    ("vst2q_s64", TVoid, [TPtr I64; tvecs 2 I64 2], 791%Z);
    ("vst2q_u64", TVoid, [TPtr U64; tvecs 2 U64 2], 792%Z);
    ("vst2q_f64", TVoid, [TPtr F64; tvecs 2 F64 2], 793%Z);
    ("vst2_lane_s8", TVoid, [TPtr I8; tvecs 2 I8 8; TScal I32], 796%Z);
    ("vst2_lane_u8", TVoid, [TPtr U8; tvecs 2 U8 8; TScal I32], 797%Z);
    ("vst2_lane_s16", TVoid, [TPtr I16; tvecs 2 I16 4; TScal I32], 798%Z);
    ("vst2_lane_s32", TVoid, [TPtr I32; tvecs 2 I32 2; TScal I32], 799%Z);
    ("vst2_lane_u16", TVoid, [TPtr U16; tvecs 2 U16 4; TScal I32], 800%Z);
    ("vst2_lane_u32", TVoid, [TPtr U32; tvecs 2 U32 2; TScal I32], 801%Z);
    ("vst2_lane_f32", TVoid, [TPtr F32; tvecs 2 F32 2; TScal I32], 802%Z);
    ("vst2_lane_s64", TVoid, [TPtr I64; tvecs 2 I64 1; TScal I32], 803%Z);
    ("vst2_lane_u64", TVoid, [TPtr U64; tvecs 2 U64 1; TScal I32], 804%Z);
    ("vst2_lane_f64", TVoid, [TPtr F64; tvecs 2 F64 1; TScal I32], 805%Z);
    ("vst2q_lane_s16", TVoid, [TPtr I16; tvecs 2 I16 8; TScal I32], 808%Z);
    ("vst2q_lane_s32", TVoid, [TPtr I32; tvecs 2 I32 4; TScal I32], 809%Z);
    ("vst2q_lane_u16", TVoid, [TPtr U16; tvecs 2 U16 8; TScal I32], 810%Z);
    ("vst2q_lane_u32", TVoid, [TPtr U32; tvecs 2 U32 4; TScal I32], 811%Z);
    ("vst2q_lane_f32", TVoid, [TPtr F32; tvecs 2 F32 4; TScal I32], 812%Z);
    ("vst2q_lane_s8", TVoid, [TPtr I8; tvecs 2 I8 16; TScal I32], 813%Z);
    ("vst2q_lane_u8", TVoid, [TPtr U8; tvecs 2 U8 16; TScal I32], 814%Z);
    ("vst2q_lane_s64", TVoid, [TPtr I64; tvecs 2 I64 2; TScal I32], 815%Z);
    ("vst2q_lane_u64", TVoid, [TPtr U64; tvecs 2 U64 2; TScal I32], 816%Z);
    ("vst2q_lane_f64", TVoid, [TPtr F64; tvecs 2 F64 2; TScal I32], 817%Z);
    ("vst3_s8", TVoid, [TPtr I8; tvecs 3 I8 8], 820%Z);
    ("vst3_s16", TVoid, [TPtr I16; tvecs 3 I16 4], 821%Z);
    ("vst3_s32", TVoid, [TPtr I32; tvecs 3 I32 2], 822%Z);
    ("vst3_u8", TVoid, [TPtr U8; tvecs 3 U8 8], 823%Z);
    ("vst3_u16", TVoid, [TPtr U16; tvecs 3 U16 4], 824%Z);
    ("vst3_u32", TVoid, [TPtr U32; tvecs 3 U32 2], 825%Z);
    ("vst3_f32", TVoid, [TPtr F32; tvecs 3 F32 2], 826%Z);
    ("vst3_s64", TVoid, [TPtr I64; tvecs 3 I64 1], 827%Z);
    ("vst3_u64", TVoid, [TPtr U64; tvecs 3 U64 1], 828%Z);
    ("vst3_f64", TVoid, [TPtr F64; tvecs 3 F64 1], 829%Z);
    ("vst3q_s8", TVoid, [TPtr I8; tvecs 3 I8 16], 832%Z);
    ("vst3q_s16", TVoid, [TPtr I16; tvecs 3 I16 8], 833%Z);
    ("vst3q_s32", TVoid, [TPtr I32; tvecs 3 I32 4], 834%Z);
    ("vst3q_u8", TVoid, [TPtr U8; tvecs 3 U8 16], 835%Z);
    ("vst3q_u16", TVoid, [TPtr U16; tvecs 3 U16 8], 836%Z);
    ("vst3q_u32", TVoid, [TPtr U32; tvecs 3 U32 4], 837%Z);
    ("vst3q_f32", TVoid, [TPtr F32; tvecs 3 F32 4], 838%Z);
    ("vst3q_s64", TVoid, [TPtr I64; tvecs 3 I64 2], 839%Z);
    ("vst3q_u64", TVoid, [TPtr U64; tvecs 3 U64 2], 840%Z);
    ("vst3q_f64", TVoid, [TPtr F64; tvecs 3 F64 2], 841%Z);
    ("vst3_lane_s8", TVoid, [TPtr I8; tvecs 3 I8 8; TScal I32], 844%Z);
    ("vst3_lane_u8", TVoid, [TPtr U8; tvecs 3 U8 8; TScal I32], 845%Z);
    ("vst3_lane_s16", TVoid, [TPtr I16; tvecs 3 I16 4; TScal I32], 846%Z);
    ("vst3_lane_s32", TVoid, [TPtr I32; tvecs 3 I32 2; TScal I32], 847%Z);
    ("vst3_lane_u16", TVoid, [TPtr U16; tvecs 3 U16 4; TScal I32], 848%Z);
    ("vst3_lane_u32", TVoid, [TPtr U32; tvecs 3 U32 2; TScal I32], 849%Z);
    ("vst3_lane_f32", TVoid, [TPtr F32; tvecs 3 F32 2; TScal I32], 850%Z);
    ("vst3_lane_s64", TVoid, [TPtr I64; tvecs 3 I64 1; TScal I32], 851%Z);
    ("vst3_lane_u64", TVoid, [TPtr U64; tvecs 3 U64 1; TScal I32], 852%Z);
    ("vst3_lane_f64", TVoid, [TPtr F64; tvecs 3 F64 1; TScal I32], 853%Z);
    ("vst3q_lane_s16", TVoid, [TPtr I16; tvecs 3 I16 8; TScal I32], 856%Z);
    ("vst3q_lane_s32", TVoid, [TPtr I32; tvecs 3 I32 4; TScal I32], 857%Z);
    ("vst3q_lane_u16", TVoid, [TPtr U16; tvecs 3 U16 8; TScal I32], 858%Z);
    ("vst3q_lane_u32", TVoid, [TPtr U32; tvecs 3 U32 4; TScal I32], 859%Z);
    ("vst3q_lane_f32", TVoid, [TPtr F32; tvecs 3 F32 4; TScal I32], 860%Z);
    ("vst3q_lane_s8", TVoid, [TPtr I8; tvecs 3 I8 16; TScal I32], 861%Z);
    ("vst3q_lane_u8", TVoid, [TPtr U8; tvecs 3 U8 16; TScal I32], 862%Z);
    ("vst3q_lane_s64", TVoid, [TPtr I64; tvecs 3 I64 2; TScal I32], 863%Z);
    ("vst3q_lane_u64", TVoid, [TPtr U64; tvecs 3 U64 2; TScal I32], 864%Z);
    ("vst3q_lane_f64", TVoid, [TPtr F64; tvecs 3 F64 2; TScal I32], 865%Z);
    ("vst4_s8", TVoid, [TPtr I8; tvecs 4 I8 8], 868%Z);
    ("vst4_s16", TVoid, [TPtr I16; tvecs 4 I16 4], 869%Z);
    ("vst4_s32", TVoid, [TPtr I32; tvecs 4 I32 2], 870%Z);
    ("vst4_u8", TVoid, [TPtr U8; tvecs 4 U8 8], 871%Z);
    ("vst4_u16", TVoid, [TPtr U16; tvecs 4 U16 4], 872%Z);
    ("vst4_u32", TVoid, [TPtr U32; tvecs 4 U32 2], 873%Z);
    ("vst4_f32", TVoid, [TPtr F32; tvecs 4 F32 2], 874%Z);
    ("vst4_s64", TVoid, [TPtr I64; tvecs 4 I64 1], 875%Z);
    ("vst4_u64", TVoid, [TPtr U64; tvecs 4 U64 1], 876%Z);
    ("vst4_f64", TVoid, [TPtr F64; tvecs 4 F64 1], 877%Z);
    ("vst4q_s8", TVoid, [TPtr I8; tvecs 4 I8 16], 880%Z);
    ("vst4q_s16", TVoid, [TPtr I16; tvecs 4 I16 8], 881%Z);
    ("vst4q_s32", TVoid, [TPtr I32; tvecs 4 I32 4], 882%Z);
    ("vst4q_u8", TVoid, [TPtr U8; tvecs 4 U8 16], 883%Z);
    ("vst4q_u16", TVoid, [TPtr U16; tvecs 4 U16 8], 884%Z);
    ("vst4q_u32", TVoid, [TPtr U32; tvecs 4 U32 4], 885%Z);
    ("vst4q_f32", TVoid, [TPtr F32; tvecs 4 F32 4], 886%Z);
    ("vst4q_s64", TVoid, [TPtr I64; tvecs 4 I64 2], 887%Z);
    ("vst4q_u64", TVoid, [TPtr U64; tvecs 4 U64 2], 888%Z);
    ("vst4q_f64", TVoid, [TPtr F64; tvecs 4 F64 2], 889%Z);
    ("vst4_lane_s8", TVoid, [TPtr I8; tvecs 4 I8 8; TScal I32], 892%Z);
    ("vst4_lane_u8", TVoid, [TPtr U8; tvecs 4 U8 8; TScal I32], 893%Z);
    ("vst4_lane_s16", TVoid, [TPtr I16; tvecs 4 I16 4; TScal I32], 894%Z);
    ("vst4_lane_s32", TVoid, [TPtr I32; tvecs 4 I32 2; TScal I32], 895%Z);
    ("vst4_lane_u16", TVoid, [TPtr U16; tvecs 4 U16 4; TScal I32], 896%Z);
    ("vst4_lane_u32", TVoid, [TPtr U32; tvecs 4 U32 2; TScal I32], 897%Z);
    ("vst4_lane_f32", TVoid, [TPtr F32; tvecs 4 F32 2; TScal I32], 898%Z);
    ("vst4_lane_s64", TVoid, [TPtr I64; tvecs 4 I64 1; TScal I32], 899%Z);
    ("vst4_lane_u64", TVoid, [TPtr U64; tvecs 4 U64 1; TScal I32], 900%Z);
    ("vst4_lane_f64", TVoid, [TPtr F64; tvecs 4 F64 1; TScal I32], 901%Z);
    ("vst4q_lane_s16", TVoid, [TPtr I16; tvecs 4 I16 8; TScal I32], 904%Z);
    ("vst4q_lane_s32", TVoid, [TPtr I32; tvecs 4 I32 4; TScal I32], 905%Z);
    ("vst4q_lane_u16", TVoid, [TPtr U16; tvecs 4 U16 8; TScal I32], 906%Z);
    ("vst4q_lane_u32", TVoid, [TPtr U32; tvecs 4 U32 4; TScal I32], 907%Z);
    ("vst4q_lane_f32", TVoid, [TPtr F32; tvecs 4 F32 4; TScal I32], 908%Z);
    ("vst4q_lane_s8", TVoid, [TPtr I8; tvecs 4 I8 16; TScal I32], 909%Z);
    ("vst4q_lane_u8", TVoid, [TPtr U8; tvecs 4 U8 16; TScal I32], 910%Z);
    ("vst4q_lane_s64", TVoid, [TPtr I64; tvecs 4 I64 2; TScal I32], 911%Z);
    ("vst4q_lane_u64", TVoid, [TPtr U64; tvecs 4 U64 2; TScal I32], 912%Z);
    ("vst4q_lane_f64", TVoid, [TPtr F64; tvecs 4 F64 2; TScal I32], 913%Z);
    ("vadd_s8", tvec I8 8, [tvec I8 8; tvec I8 8], 920%Z);
    ("vadd_s16", tvec I16 4, [tvec I16 4; tvec I16 4], 921%Z);
    ("vadd_s32", tvec I32 2, [tvec I32 2; tvec I32 2], 922%Z);
    ("vadd_s64", tvec I64 1, [tvec I64 1; tvec I64 1], 923%Z);
    ("vadd_u8", tvec U8 8, [tvec U8 8; tvec U8 8], 924%Z);
    ("vadd_u16", tvec U16 4, [tvec U16 4; tvec U16 4], 925%Z);
    ("vadd_u32", tvec U32 2, [tvec U32 2; tvec U32 2], 926%Z);
    ("vadd_u64", tvec U64 1, [tvec U64 1; tvec U64 1], 927%Z);
    ("vadd_f32", tvec F32 2, [tvec F32 2; tvec F32 2], 928%Z);
    ("vadd_f64", tvec F64 1, [tvec F64 1; tvec F64 1], 929%Z);
    ("vaddq_s8", tvec I8 16, [tvec I8 16; tvec I8 16], 932%Z);
    ("vaddq_s16", tvec I16 8, [tvec I16 8; tvec I16 8], 933%Z);
    ("vaddq_s32", tvec I32 4, [tvec I32 4; tvec I32 4], 934%Z);
    ("vaddq_s64", tvec I64 2, [tvec I64 2; tvec I64 2], 935%Z);
    ("vaddq_u8", tvec U8 16, [tvec U8 16; tvec U8 16], 936%Z);
    ("vaddq_u16", tvec U16 8, [tvec U16 8; tvec U16 8], 937%Z);
    ("vaddq_u32", tvec U32 4, [tvec U32 4; tvec U32 4], 938%Z);
    ("vaddq_u64", tvec U64 2, [tvec U64 2; tvec U64 2], 939%Z);
    ("vaddq_f32", tvec F32 4, [tvec F32 4; tvec F32 4], 940%Z);
    ("vaddq_f64", tvec F64 2, [tvec F64 2; tvec F64 2], 941%Z);
    ("vaddl_s8", tvec I16 8, [tvec I8 8; tvec I8 8], 944%Z);
    ("vaddl_s16", tvec I32 4, [tvec I16 4; tvec I16 4], 945%Z);
    ("vaddl_s32", tvec I64 2, [tvec I32 2; tvec I32 2], 946%Z);
    ("vaddl_u8", tvec U16 8, [tvec U8 8; tvec U8 8], 947%Z);
    ("vaddl_u16", tvec U32 4, [tvec U16 4; tvec U16 4], 948%Z);
    ("vaddl_u32", tvec U64 2, [tvec U32 2; tvec U32 2], 949%Z);
    ("vaddl_high_s8", tvec I16 8, [tvec I8 16; tvec I8 16], 951%Z);
    ("vaddl_high_s16", tvec I32 4, [tvec I16 8; tvec I16 8], 952%Z);
    ("vaddl_high_s32", tvec I64 2, [tvec I32 4; tvec I32 4], 953%Z);
    ("vaddl_high_u8", tvec U16 8, [tvec U8 16; tvec U8 16], 954%Z);
    ("vaddl_high_u16", tvec U32 4, [tvec U16 8; tvec U16 8], 955%Z);
    ("vaddl_high_u32", tvec U64 2, [tvec U32 4; tvec U32 4], 956%Z);
    ("vaddw_s8", tvec I16 8, [tvec I16 8; tvec I8 8], 960%Z);
    ("vaddw_s16", tvec I32 4, [tvec I32 4; tvec I16 4], 961%Z);
    ("vaddw_s32", tvec I64 2, [tvec I64 2; tvec I32 2], 962%Z);
    ("vaddw_u8", tvec U16 8, [tvec U16 8; tvec U8 8], 963%Z);
    ("vaddw_u16", tvec U32 4, [tvec U32 4; tvec U16 4], 964%Z);
    ("vaddw_u32", tvec U64 2, [tvec U64 2; tvec U32 2], 965%Z);
    ("vaddw_high_s8", tvec I16 8, [tvec I16 8; tvec I8 16], 967%Z);
    ("vaddw_high_s16", tvec I32 4, [tvec I32 4; tvec I16 8], 968%Z);
    ("vaddw_high_s32", tvec I64 2, [tvec I64 2; tvec I32 4], 969%Z);
    ("vaddw_high_u8", tvec U16 8, [tvec U16 8; tvec U8 16], 970%Z);
    ("vaddw_high_u16", tvec U32 4, [tvec U32 4; tvec U16 8], 971%Z);
    ("vaddw_high_u32", tvec U64 2, [tvec U64 2; tvec U32 4], 972%Z);
    ("vaddhn_s16", tvec I8 8, [tvec I16 8; tvec I16 8], 976%Z);
    ("vaddhn_s32", tvec I16 4, [tvec I32 4; tvec I32 4], 977%Z);
    ("vaddhn_s64", tvec I32 2, [tvec I64 2; tvec I64 2], 978%Z);
    ("vaddhn_u16", tvec U8 8, [tvec U16 8; tvec U16 8], 979%Z);
    ("vaddhn_u32", tvec U16 4, [tvec U32 4; tvec U32 4], 980%Z);
    ("vaddhn_u64", tvec U32 2, [tvec U64 2; tvec U64 2], 981%Z);
    ("vaddhn_high_s16", tvec I8 16, [tvec I8 8; tvec I16 8; tvec I16 8], 983%Z);
    ("vaddhn_high_s32", tvec I16 8, [tvec I16 4; tvec I32 4; tvec I32 4], 984%Z);
    ("vaddhn_high_s64", tvec I32 4, [tvec I32 2; tvec I64 2; tvec I64 2], 985%Z);
    ("vaddhn_high_u16", tvec U8 16, [tvec U8 8; tvec U16 8; tvec U16 8], 986%Z);
    ("vaddhn_high_u32", tvec U16 8, [tvec U16 4; tvec U32 4; tvec U32 4], 987%Z);
    ("vaddhn_high_u64", tvec U32 4, [tvec U32 2; tvec U64 2; tvec U64 2], 988%Z);
    ("vqadd_s8", tvec I8 8, [tvec I8 8; tvec I8 8], 992%Z);
    ("vqadd_s16", tvec I16 4, [tvec I16 4; tvec I16 4], 993%Z);
    ("vqadd_s32", tvec I32 2, [tvec I32 2; tvec I32 2], 994%Z);
    ("vqadd_s64", tvec I64 1, [tvec I64 1; tvec I64 1], 995%Z);
    ("vqadd_u8", tvec U8 8, [tvec U8 8; tvec U8 8], 996%Z);
    ("vqadd_u16", tvec U16 4, [tvec U16 4; tvec U16 4], 997%Z);
    ("vqadd_u32", tvec U32 2, [tvec U32 2; tvec U32 2], 998%Z);
    ("vqadd_u64", tvec U64 1, [tvec U64 1; tvec U64 1], 999%Z);
    ("vqaddq_s8", tvec I8 16, [tvec I8 16; tvec I8 16], 1002%Z);
    ("vqaddq_s16", tvec I16 8, [tvec I16 8; tvec I16 8], 1003%Z);
    ("vqaddq_s32", tvec I32 4, [tvec I32 4; tvec I32 4], 1004%Z);
    ("vqaddq_s64", tvec I64 2, [tvec I64 2; tvec I64 2], 1005%Z);
    ("vqaddq_u8", tvec U8 16, [tvec U8 16; tvec U8 16], 1006%Z);
    ("vqaddq_u16", tvec U16 8, [tvec U16 8; tvec U16 8], 1007%Z);
    ("vqaddq_u32", tvec U32 4, [tvec U32 4; tvec U32 4], 1008%Z);
    ("vqaddq_u64", tvec U64 2, [tvec U64 2; tvec U64 2], 1009%Z);
    ("vhadd_s8", tvec I8 8, [tvec I8 8; tvec I8 8], 1012%Z);
    ("vhadd_s16", tvec I16 4, [tvec I16 4; tvec I16 4], 1013%Z);
    ("vhadd_s32", tvec I32 2, [tvec I32 2; tvec I32 2], 1014%Z);
    ("vhadd_u8", tvec U8 8, [tvec U8 8; tvec U8 8], 1015%Z);
    ("vhadd_u16", tvec U16 4, [tvec U16 4; tvec U16 4], 1016%Z);
    ("vhadd_u32", tvec U32 2, [tvec U32 2; tvec U32 2], 1017%Z);
    ("vhaddq_s8", tvec I8 16, [tvec I8 16; tvec I8 16], 1020%Z);
    ("vhaddq_s16", tvec I16 8, [tvec I16 8; tvec I16 8], 1021%Z);
    ("vhaddq_s32", tvec I32 4, [tvec I32 4; tvec I32 4], 1022%Z);
    ("vhaddq_u8", tvec U8 16, [tvec U8 16; tvec U8 16], 1023%Z);
    ("vhaddq_u16", tvec U16 8, [tvec U16 8; tvec U16 8], 1024%Z);
    ("vhaddq_u32", tvec U32 4, [tvec U32 4; tvec U32 4], 1025%Z);
    ("vrhadd_s8", tvec I8 8, [tvec I8 8; tvec I8 8], 1028%Z);
    ("vrhadd_s16", tvec I16 4, [tvec I16 4; tvec I16 4], 1029%Z);
    ("vrhadd_s32", tvec I32 2, [tvec I32 2; tvec I32 2], 1030%Z);
    ("vrhadd_u8", tvec U8 8, [tvec U8 8; tvec U8 8], 1031%Z);
    ("vrhadd_u16", tvec U16 4, [tvec U16 4; tvec U16 4], 1032%Z);
    ("vrhadd_u32", tvec U32 2, [tvec U32 2; tvec U32 2], 1033%Z);
    ("vrhaddq_s8", tvec I8 16, [tvec I8 16; tvec I8 16], 1036%Z);
    ("vrhaddq_s16", tvec I16 8, [tvec I16 8; tvec I16 8], 1037%Z);
    ("vrhaddq_s32", tvec I32 4, [tvec I32 4; tvec I32 4], 1038%Z);
    ("vrhaddq_u8", tvec U8 16, [tvec U8 16; tvec U8 16], 1039%Z);
    ("vrhaddq_u16", tvec U16 8, [tvec U16 8; tvec U16 8], 1040%Z);
    ("vrhaddq_u32", tvec U32 4, [tvec U32 4; tvec U32 4], 1041%Z);
    ("vpadd_s8", tvec I8 8, [tvec I8 8; tvec I8 8], 1044%Z);
    ("vpadd_s16", tvec I16 4, [tvec I16 4; tvec I16 4], 1045%Z);
    ("vpadd_s32", tvec I32 2, [tvec I32 2; tvec I32 2], 1046%Z);
    ("vpadd_u8", tvec U8 8, [tvec U8 8; tvec U8 8], 1047%Z);
    ("vpadd_u16", tvec U16 4, [tvec U16 4; tvec U16 4], 1048%Z);
    ("vpadd_u32", tvec U32 2, [tvec U32 2; tvec U32 2], 1049%Z);
    ("vpadd_f32", tvec F32 2, [tvec F32 2; tvec F32 2], 1050%Z);
    ("vpaddl_s8", tvec I16 4, [tvec I8 8], 1056%Z);
    ("vpaddl_s16", tvec I32 2, [tvec I16 4], 1057%Z);
    ("vpaddl_s32", tvec I64 1, [tvec I32 2], 1058%Z);
    ("vpaddl_u8", tvec U16 4, [tvec U8 8], 1059%Z);
    ("vpaddl_u16", tvec U32 2, [tvec U16 4], 1060%Z);
    ("vpaddl_u32", tvec U64 1, [tvec U32 2], 1061%Z);
    ("vpaddlq_s8", tvec I16 8, [tvec I8 16], 1064%Z);
    ("vpaddlq_s16", tvec I32 4, [tvec I16 8], 1065%Z);
    ("vpaddlq_s32", tvec I64 2, [tvec I32 4], 1066%Z);
    ("vpaddlq_u8", tvec U16 8, [tvec U8 16], 1067%Z);
    ("vpaddlq_u16", tvec U32 4, [tvec U16 8], 1068%Z);
    ("vpaddlq_u32", tvec U64 2, [tvec U32 4], 1069%Z);
    ("vpadal_s8", tvec I16 4, [tvec I16 4; tvec I8 8], 1072%Z);
    ("vpadal_s16", tvec I32 2, [tvec I32 2; tvec I16 4], 1073%Z);
    ("vpadal_s32", tvec I64 1, [tvec I64 1; tvec I32 2], 1074%Z);
    ("vpadal_u8", tvec U16 4, [tvec U16 4; tvec U8 8], 1075%Z);
    ("vpadal_u16", tvec U32 2, [tvec U32 2; tvec U16 4], 1076%Z);
    ("vpadal_u32", tvec U64 1, [tvec U64 1; tvec U32 2], 1077%Z);
    ("vsub_s8", tvec I8 8, [tvec I8 8; tvec I8 8], 1080%Z);
    ("vsub_s16", tvec I16 4, [tvec I16 4; tvec I16 4], 1081%Z);
    ("vsub_s32", tvec I32 2, [tvec I32 2; tvec I32 2], 1082%Z);
    ("vsub_s64", tvec I64 1, [tvec I64 1; tvec I64 1], 1083%Z);
    ("vsub_u8", tvec U8 8, [tvec U8 8; tvec U8 8], 1084%Z);
    ("vsub_u16", tvec U16 4, [tvec U16 4; tvec U16 4], 1085%Z);
    ("vsub_u32", tvec U32 2, [tvec U32 2; tvec U32 2], 1086%Z);
    ("vsub_u64", tvec U64 1, [tvec U64 1; tvec U64 1], 1087%Z);
    ("vsub_f32", tvec F32 2, [tvec F32 2; tvec F32 2], 1088%Z);
    ("vsub_f64", tvec F64 1, [tvec F64 1; tvec F64 1], 1089%Z);
    ("vsubq_s8", tvec I8 16, [tvec I8 16; tvec I8 16], 1095%Z);
    ("vsubq_s16", tvec I16 8, [tvec I16 8; tvec I16 8], 1096%Z);
    ("vsubq_s32", tvec I32 4, [tvec I32 4; tvec I32 4], 1097%Z);
    ("vsubq_s64", tvec I64 2, [tvec I64 2; tvec I64 2], 1098%Z);
    ("vsubq_u8", tvec U8 16, [tvec U8 16; tvec U8 16], 1099%Z);
    ("vsubq_u16", tvec U16 8, [tvec U16 8; tvec U16 8], 1100%Z);
    ("vsubq_u32", tvec U32 4, [tvec U32 4; tvec U32 4], 1101%Z);
    ("vsubq_u64", tvec U64 2, [tvec U64 2; tvec U64 2], 1102%Z);
    ("vsubq_f32", tvec F32 4, [tvec F32 4; tvec F32 4], 1103%Z);
    ("vsubq_f64", tvec F64 2, [tvec F64 2; tvec F64 2], 1104%Z);
    ("vsubl_s8", tvec I16 8, [tvec I8 8; tvec I8 8], 1110%Z);
    ("vsubl_s16", tvec I32 4, [tvec I16 4; tvec I16 4], 1111%Z);
    ("vsubl_s32", tvec I64 2, [tvec I32 2; tvec I32 2], 1112%Z);
    ("vsubl_u8", tvec U16 8, [tvec U8 8; tvec U8 8], 1113%Z);
    ("vsubl_u16", tvec U32 4, [tvec U16 4; tvec U16 4], 1114%Z);
    ("vsubl_u32", tvec U64 2, [tvec U32 2; tvec U32 2], 1115%Z);
    ("vsubl_high_s8", tvec I16 8, [tvec I8 16; tvec I8 16], 1116%Z);
    ("vsubl_high_s16", tvec I32 4, [tvec I16 8; tvec I16 8], 1117%Z);
    ("vsubl_high_s32", tvec I64 2, [tvec I32 4; tvec I32 4], 1118%Z);
    ("vsubl_high_u8", tvec U16 8, [tvec U8 16; tvec U8 16], 1119%Z);
    ("vsubl_high_u16", tvec U32 4, [tvec U16 8; tvec U16 8], 1120%Z);
    ("vsubl_high_u32", tvec U64 2, [tvec U32 4; tvec U32 4], 1121%Z);
    ("vsubw_s8", tvec I16 8, [tvec I16 8; tvec I8 8], 1124%Z);
    ("vsubw_s16", tvec I32 4, [tvec I32 4; tvec I16 4], 1125%Z);
    ("vsubw_s32", tvec I64 2, [tvec I64 2; tvec I32 2], 1126%Z);
    ("vsubw_u8", tvec U16 8, [tvec U16 8; tvec U8 8], 1127%Z);
    ("vsubw_u16", tvec U32 4, [tvec U32 4; tvec U16 4], 1128%Z);
    ("vsubw_u32", tvec U64 2, [tvec U64 2; tvec U32 2], 1129%Z);
    ("vsubw_high_s8", tvec I16 8, [tvec I16 8; tvec I8 16], 1130%Z);
    ("vsubw_high_s16", tvec I32 4, [tvec I32 4; tvec I16 8], 1131%Z);
    ("vsubw_high_s32", tvec I64 2, [tvec I64 2; tvec I32 4], 1132%Z);
    ("vsubw_high_u8", tvec U16 8, [tvec U16 8; tvec U8 16], 1133%Z);
    ("vsubw_high_u16", tvec U32 4, [tvec U32 4; tvec U16 8], 1134%Z);
    ("vsubw_high_u32", tvec U64 2, [tvec U64 2; tvec U32 4], 1135%Z);
    ("vsubhn_s16", tvec I8 8, [tvec I16 8; tvec I16 8], 1138%Z);
    ("vsubhn_s32", tvec I16 4, [tvec I32 4; tvec I32 4], 1139%Z);
    ("vsubhn_s64", tvec I32 2, [tvec I64 2; tvec I64 2], 1140%Z);
    ("vsubhn_u16", tvec U8 8, [tvec U16 8; tvec U16 8], 1141%Z);
    ("vsubhn_u32", tvec U16 4, [tvec U32 4; tvec U32 4], 1142%Z);
    ("vsubhn_u64", tvec U32 2, [tvec U64 2; tvec U64 2], 1143%Z);
    ("vsubhn_high_s16", tvec I8 16, [tvec I8 8; tvec I16 8; tvec I16 8], 1144%Z);
    ("vsubhn_high_s32", tvec I16 8, [tvec I16 4; tvec I32 4; tvec I32 4], 1145%Z);
    ("vsubhn_high_s64", tvec I32 4, [tvec I32 2; tvec I64 2; tvec I64 2], 1146%Z);
    ("vsubhn_high_u16", tvec U8 16, [tvec U8 8; tvec U16 8; tvec U16 8], 1147%Z);
    ("vsubhn_high_u32", tvec U16 8, [tvec U16 4; tvec U32 4; tvec U32 4], 1148%Z);
    ("vsubhn_high_u64", tvec U32 4, [tvec U32 2; tvec U64 2; tvec U64 2], 1149%Z);
    ("vqsub_s8", tvec I8 8, [tvec I8 8; tvec I8 8], 1152%Z);
    ("vqsub_s16", tvec I16 4, [tvec I16 4; tvec I16 4], 1153%Z);
    ("vqsub_s32", tvec I32 2, [tvec I32 2; tvec I32 2], 1154%Z);
    ("vqsub_s64", tvec I64 1, [tvec I64 1; tvec I64 1], 1155%Z);
    ("vqsub_u8", tvec U8 8, [tvec U8 8; tvec U8 8], 1156%Z);
    ("vqsub_u16", tvec U16 4, [tvec U16 4; tvec U16 4], 1157%Z);
    ("vqsub_u32", tvec U32 2, [tvec U32 2; tvec U32 2], 1158%Z);
    ("vqsub_u64", tvec U64 1, [tvec U64 1; tvec U64 1], 1159%Z);
    ("vqsubq_s8", tvec I8 16, [tvec I8 16; tvec I8 16], 1162%Z);
    ("vqsubq_s16", tvec I16 8, [tvec I16 8; tvec I16 8], 1163%Z);
    ("vqsubq_s32", tvec I32 4, [tvec I32 4; tvec I32 4], 1164%Z);
    ("vqsubq_s64", tvec I64 2, [tvec I64 2; tvec I64 2], 1165%Z);
    ("vqsubq_u8", tvec U8 16, [tvec U8 16; tvec U8 16], 1166%Z);
    ("vqsubq_u16", tvec U16 8, [tvec U16 8; tvec U16 8], 1167%Z);
    ("vqsubq_u32", tvec U32 4, [tvec U32 4; tvec U32 4], 1168%Z);
    ("vqsubq_u64", tvec U64 2, [tvec U64 2; tvec U64 2], 1169%Z);
    ("vhsub_s8", tvec I8 8, [tvec I8 8; tvec I8 8], 1172%Z);
    ("vhsub_s16", tvec I16 4, [tvec I16 4; tvec I16 4], 1173%Z);
    ("vhsub_s32", tvec I32 2, [tvec I32 2; tvec I32 2], 1174%Z);
    ("vhsub_u8", tvec U8 8, [tvec U8 8; tvec U8 8], 1175%Z);
    ("vhsub_u16", tvec U16 4, [tvec U16 4; tvec U16 4], 1176%Z);
    ("vhsub_u32", tvec U32 2, [tvec U32 2; tvec U32 2], 1177%Z);
    ("vhsubq_s8", tvec I8 16, [tvec I8 16; tvec I8 16], 1180%Z);
    ("vhsubq_s16", tvec I16 8, [tvec I16 8; tvec I16 8], 1181%Z);
    ("vhsubq_s32", tvec I32 4, [tvec I32 4; tvec I32 4], 1182%Z);
    ("vhsubq_u8", tvec U8 16, [tvec U8 16; tvec U8 16], 1183%Z);
    ("vhsubq_u16", tvec U16 8, [tvec U16 8; tvec U16 8], 1184%Z);
    ("vhsubq_u32", tvec U32 4, [tvec U32 4; tvec U32 4], 1185%Z);
    ("vrsubhn_s16", tvec I8 8, [tvec I16 8; tvec I16 8], 1188%Z);
    ("vrsubhn_s32", tvec I16 4, [tvec I32 4; tvec I32 4], 1189%Z);
    ("vrsubhn_s64", tvec I32 2, [tvec I64 2; tvec I64 2], 1190%Z);
    ("vrsubhn_u16", tvec U8 8, [tvec U16 8; tvec U16 8], 1191%Z);
    ("vrsubhn_u32", tvec U16 4, [tvec U32 4; tvec U32 4], 1192%Z);
    ("vrsubhn_u64", tvec U32 2, [tvec U64 2; tvec U64 2], 1193%Z);
    ("vrsubhn_high_s16", tvec I8 16, [tvec I8 8; tvec I16 8; tvec I16 8], 1194%Z);
    ("vrsubhn_high_s32", tvec I16 8, [tvec I16 4; tvec I32 4; tvec I32 4], 1195%Z);
    ("vrsubhn_high_s64", tvec I32 4, [tvec I32 2; tvec I64 2; tvec I64 2], 1196%Z);
    ("vrsubhn_high_u16", tvec U8 16, [tvec U8 8; tvec U16 8; tvec U16 8], 1197%Z);
    ("vrsubhn_high_u32", tvec U16 8, [tvec U16 4; tvec U32 4; tvec U32 4], 1198%Z);
    ("vrsubhn_high_u64", tvec U32 4, [tvec U32 2; tvec U64 2; tvec U64 2], 1199%Z);
    ("vcreate_s8", tvec I8 8, [TScal U64], 1206%Z);
    ("vcreate_s16", tvec I16 4, [TScal U64], 1207%Z);
    ("vcreate_s32", tvec I32 2, [TScal U64], 1208%Z);
    ("vcreate_s64", tvec I64 1, [TScal U64], 1209%Z);
    ("vcreate_u8", tvec U8 8, [TScal U64], 1210%Z);
    ("vcreate_u16", tvec U16 4, [TScal U64], 1211%Z);
    ("vcreate_u32", tvec U32 2, [TScal U64], 1212%Z);
    ("vcreate_u64", tvec U64 1, [TScal U64], 1213%Z);
    ("vcreate_f32", tvec F32 2, [TScal U64], 1214%Z);
    ("vcreate_f64", tvec F64 1, [TScal U64], 1215%Z);
    ("vdup_n_s8", tvec I8 8, [TScal I8], 1218%Z);
    ("vdup_n_s16", tvec I16 4, [TScal I16], 1219%Z);
    ("vdup_n_s32", tvec I32 2, [TScal I32], 1220%Z);
    ("vdup_n_s64", tvec I64 1, [TScal I64], 1221%Z);
    ("vdup_n_u8", tvec U8 8, [TScal U8], 1222%Z);
    ("vdup_n_u16", tvec U16 4, [TScal U16], 1223%Z);
    ("vdup_n_u32", tvec U32 2, [TScal U32], 1224%Z);
    ("vdup_n_u64", tvec U64 1, [TScal U64], 1225%Z);
    ("vdup_n_f32", tvec F32 2, [TScal F32], 1226%Z);
    ("vdup_n_f64", tvec F64 1, [TScal F64], 1227%Z);
    ("vmov_n_s8", tvec I8 8, [TScal I8], 1230%Z);
    ("vmov_n_s16", tvec I16 4, [TScal I16], 1231%Z);
    ("vmov_n_s32", tvec I32 2, [TScal I32], 1232%Z);
    ("vmov_n_s64", tvec I64 1, [TScal I64], 1233%Z);
    ("vmov_n_u8", tvec U8 8, [TScal U8], 1234%Z);
    ("vmov_n_u32", tvec U32 2, [TScal U32], 1235%Z);
    ("vmov_n_u64", tvec U64 1, [TScal U64], 1236%Z);
    ("vmov_n_f32", tvec F32 2, [TScal F32], 1237%Z);
    ("vmov_n_f64", tvec F64 1, [TScal F64], 1238%Z);
    ("vdupq_n_s8", tvec I8 16, [TScal I8], 1241%Z);
    ("vdupq_n_s16", tvec I16 8, [TScal I16], 1242%Z);
    ("vdupq_n_s32", tvec I32 4, [TScal I32], 1243%Z);
    ("vdupq_n_s64", tvec I64 2, [TScal I64], 1244%Z);
    ("vdupq_n_u8", tvec U8 16, [TScal U8], 1245%Z);
    ("vdupq_n_u16", tvec U16 8, [TScal U16], 1246%Z);
    ("vdupq_n_u32", tvec U32 4, [TScal U32], 1247%Z);
    ("vdupq_n_u64", tvec U64 2, [TScal U64], 1248%Z);
    ("vdupq_n_f32", tvec F32 4, [TScal F32], 1249%Z);
    ("vdupq_n_f64", tvec F64 2, [TScal F64], 1250%Z);
    ("vmovq_n_s8", tvec I8 16, [TScal I8], 1253%Z);
    ("vmovq_n_s16", tvec I16 8, [TScal I16], 1254%Z);
    ("vmovq_n_s32", tvec I32 4, [TScal I32], 1255%Z);
    ("vmovq_n_s64", tvec I64 2, [TScal I64], 1256%Z);
    ("vmovq_n_u8", tvec U8 16, [TScal U8], 1257%Z);
    ("vmovq_n_u16", tvec U16 8, [TScal U16], 1258%Z);
    ("vmovq_n_u32", tvec U32 4, [TScal U32], 1259%Z);
    ("vmovq_n_u64", tvec U64 2, [TScal U64], 1260%Z);
    ("vmovq_n_f32", tvec F32 4, [TScal F32], 1261%Z);
    ("vmovq_n_f64", tvec F64 2, [TScal F64], 1262%Z);
    ("vdup_lane_s8", tvec I8 8, [tvec I8 8; TScal I32], 1265%Z);
    ("vdup_lane_s16", tvec I16 4, [tvec I16 4; TScal I32], 1266%Z);
    ("vdup_lane_s32", tvec I32 2, [tvec I32 2; TScal I32], 1267%Z);
    ("vdup_lane_s64", tvec I64 1, [tvec I64 1; TScal I32], 1268%Z);
    ("vdup_lane_u8", tvec U8 8, [tvec U8 8; TScal I32], 1269%Z);
    ("vdup_lane_u16", tvec U16 4, [tvec U16 4; TScal I32], 1270%Z);
    ("vdup_lane_u32", tvec U32 2, [tvec U32 2; TScal I32], 1271%Z);
    ("vdup_lane_u64", tvec U64 1, [tvec U64 1; TScal I32], 1272%Z);
    ("vdup_lane_f32", tvec F32 2, [tvec F32 2; TScal I32], 1273%Z);
    ("vdup_lane_f64", tvec F64 1, [tvec F64 1; TScal I32], 1274%Z);
    ("vdupq_lane_s8", tvec I8 16, [tvec I8 8; TScal I32], 1280%Z);
    ("vdupq_lane_s16", tvec I16 8, [tvec I16 4; TScal I32], 1281%Z);
    ("vdupq_lane_s32", tvec I32 4, [tvec I32 2; TScal I32], 1282%Z);
    ("vdupq_lane_s64", tvec I64 2, [tvec I64 1; TScal I32], 1283%Z);
    ("vdupq_lane_u8", tvec U8 16, [tvec U8 8; TScal I32], 1284%Z);
    ("vdupq_lane_u16", tvec U16 8, [tvec U16 4; TScal I32], 1285%Z);
    ("vdupq_lane_u32", tvec U32 4, [tvec U32 2; TScal I32], 1286%Z);
    ("vdupq_lane_u64", tvec U64 2, [tvec U64 1; TScal I32], 1287%Z);
    ("vdupq_lane_f32", tvec F32 4, [tvec F32 2; TScal I32], 1288%Z);
    ("vdupq_lane_f64", tvec F64 2, [tvec F64 1; TScal I32], 1289%Z);
    ("vmovl_s8", tvec I16 8, [tvec I8 8], 1295%Z);
    ("vmovl_s16", tvec I32 4, [tvec I16 4], 1296%Z);
    ("vmovl_s32", tvec I64 2, [tvec I32 2], 1297%Z);
    ("vmovl_u8", tvec U16 8, [tvec U8 8], 1298%Z);
    ("vmovl_u16", tvec U32 4, [tvec U16 4], 1299%Z);
    ("vmovl_u32", tvec U64 2, [tvec U32 2], 1300%Z);
    ("vmovl_high_s8", tvec I16 8, [tvec I8 16], 1301%Z);
    ("vmovl_high_s16", tvec I32 4, [tvec I16 8], 1302%Z);
    ("vmovl_high_s32", tvec I64 2, [tvec I32 4], 1303%Z);
    ("vmovl_high_u8", tvec U16 8, [tvec U8 16], 1304%Z);
    ("vmovl_high_u16", tvec U32 4, [tvec U16 8], 1305%Z);
    ("vmovl_high_u32", tvec U64 2, [tvec U32 4], 1306%Z);
    ("vmovn_s16", tvec I8 8, [tvec I16 8], 1309%Z);
    ("vmovn_s32", tvec I16 4, [tvec I32 4], 1310%Z);
    ("vmovn_s64", tvec I32 2, [tvec I64 2], 1311%Z);
    ("vmovn_u16", tvec U8 8, [tvec U16 8], 1312%Z);
    ("vmovn_u32", tvec U16 4, [tvec U32 4], 1313%Z);
    ("vmovn_u64", tvec U32 2, [tvec U64 2], 1314%Z);
    ("vmovn_high_s16", tvec I8 16, [tvec I8 8; tvec I16 8], 1315%Z);
    ("vmovn_high_s32", tvec I16 8, [tvec I16 4; tvec I32 4], 1316%Z);
    ("vmovn_high_s64", tvec I32 4, [tvec I32 2; tvec I64 2], 1317%Z);
    ("vmovn_high_u16", tvec U8 16, [tvec U8 8; tvec U16 8], 1318%Z);
    ("vmovn_high_u32", tvec U16 8, [tvec U16 4; tvec U32 4], 1319%Z);
    ("vmovn_high_u64", tvec U32 4, [tvec U32 2; tvec U64 2], 1320%Z);
    ("vqmovn_s16", tvec I8 8, [tvec I16 8], 1323%Z);
    ("vqmovn_s32", tvec I16 4, [tvec I32 4], 1324%Z);
    ("vqmovn_s64", tvec I32 2, [tvec I64 2], 1325%Z);
    ("vqmovn_u16", tvec U8 8, [tvec U16 8], 1326%Z);
    ("vqmovn_u32", tvec U16 4, [tvec U32 4], 1327%Z);
    ("vqmovn_u64", tvec U32 2, [tvec U64 2], 1328%Z);
    ("vqmovn_high_s16", tvec I8 16, [tvec I8 8; tvec I16 8], 1329%Z);
    ("vqmovn_high_s32", tvec I16 8, [tvec I16 4; tvec I32 4], 1330%Z);
    ("vqmovn_high_s64", tvec I32 4, [tvec I32 2; tvec I64 2], 1331%Z);
    ("vqmovn_high_u16", tvec U8 16, [tvec U8 8; tvec U16 8], 1332%Z);
    ("vqmovn_high_u32", tvec U16 8, [tvec U16 4; tvec U32 4], 1333%Z);
    ("vqmovn_high_u64", tvec U32 4, [tvec U32 2; tvec U64 2], 1334%Z);
    ("vqmovun_s16", tvec U8 8, [tvec I16 8], 1337%Z);
    ("vqmovun_s32", tvec U16 4, [tvec I32 4], 1338%Z);
    ("vqmovun_s64", tvec U32 2, [tvec I64 2], 1339%Z);
    ("vqmovun_high_s16", tvec U8 16, [tvec U8 8; tvec I16 8], 1340%Z);
    ("vqmovun_high_s32", tvec U16 8, [tvec U16 4; tvec I32 4], 1341%Z);
    ("vqmovun_high_s64", tvec U32 4, [tvec U32 2; tvec I64 2], 1342%Z);
    ("vshl_s8", tvec I8 8, [tvec I8 8; tvec I8 8], 1349%Z);
    ("vshl_s16", tvec I16 4, [tvec I16 4; tvec I16 4], 1350%Z);
    ("vshl_s32", tvec I32 2, [tvec I32 2; tvec I32 2], 1351%Z);
    ("vshl_s64", tvec I64 1, [tvec I64 1; tvec I64 1], 1352%Z);
    ("vshl_u8", tvec U8 8, [tvec U8 8; tvec I8 8], 1353%Z);
    ("vshl_u16", tvec U16 4, [tvec U16 4; tvec I16 4], 1354%Z);
    ("vshl_u32", tvec U32 2, [tvec U32 2; tvec I32 2], 1355%Z);
    ("vshl_u64", tvec U64 1, [tvec U64 1; tvec I64 1], 1356%Z);
    ("vshl_n_s8", tvec I8 8, [tvec I8 8; TScal I32], 1357%Z);
    ("vshl_n_s16", tvec I16 4, [tvec I16 4; TScal I32], 1358%Z);
    ("vshl_n_s32", tvec I32 2, [tvec I32 2; TScal I32], 1359%Z);
    ("vshl_n_s64", tvec I64 1, [tvec I64 1; TScal I32], 1360%Z);
    ("vshl_n_u8", tvec U8 8, [tvec U8 8; TScal I32], 1361%Z);
    ("vshl_n_u16", tvec U16 4, [tvec U16 4; TScal I32], 1362%Z);
    ("vshl_n_u32", tvec U32 2, [tvec U32 2; TScal I32], 1363%Z);
    ("vshl_n_u64", tvec U64 1, [tvec U64 1; TScal I32], 1364%Z);
    ("vshlq_s8", tvec I8 16, [tvec I8 16; tvec I8 16], 1367%Z);
    ("vshlq_s16", tvec I16 8, [tvec I16 8; tvec I16 8], 1368%Z);
    ("vshlq_s32", tvec I32 4, [tvec I32 4; tvec I32 4], 1369%Z);
    ("vshlq_s64", tvec I64 2, [tvec I64 2; tvec I64 2], 1370%Z);
    ("vshlq_u8", tvec U8 16, [tvec U8 16; tvec I8 16], 1371%Z);
    ("vshlq_u16", tvec U16 8, [tvec U16 8; tvec I16 8], 1372%Z);
    ("vshlq_u32", tvec U32 4, [tvec U32 4; tvec I32 4], 1373%Z);
    ("vshlq_u64", tvec U64 2, [tvec U64 2; tvec I64 2], 1374%Z);
    ("vshlq_n_s8", tvec I8 16, [tvec I8 16; TScal I32], 1375%Z);
    ("vshlq_n_s16", tvec I16 8, [tvec I16 8; TScal I32], 1376%Z);
    ("vshlq_n_s32", tvec I32 4, [tvec I32 4; TScal I32], 1377%Z);
    ("vshlq_n_s64", tvec I64 2, [tvec I64 2; TScal I32], 1378%Z);
    ("vshlq_n_u8", tvec U8 16, [tvec U8 16; TScal I32], 1379%Z);
    ("vshlq_n_u16", tvec U16 8, [tvec U16 8; TScal I32], 1380%Z);
    ("vshlq_n_u32", tvec U32 4, [tvec U32 4; TScal I32], 1381%Z);
    ("vshlq_n_u64", tvec U64 2, [tvec U64 2; TScal I32], 1382%Z);
    ("vshl_n_s8", tvec I8 8, [tvec I8 8; TScal I32], 1385%Z);
    ("vshl_n_s16", tvec I16 4, [tvec I16 4; TScal I32], 1386%Z);
    ("vshl_n_s32", tvec I32 2, [tvec I32 2; TScal I32], 1387%Z);
    ("vshl_n_s64", tvec I64 1, [tvec I64 1; TScal I32], 1388%Z);
    ("vshl_n_u8", tvec U8 8, [tvec U8 8; TScal I32], 1389%Z);
    ("vshl_n_u16", tvec U16 4, [tvec U16 4; TScal I32], 1390%Z);
    ("vshl_n_u32", tvec U32 2, [tvec U32 2; TScal I32], 1391%Z);
    ("vshl_n_u64", tvec U64 1, [tvec U64 1; TScal I32], 1392%Z);
    ("vshlq_n_s8", tvec I8 16, [tvec I8 16; TScal I32], 1395%Z);
    ("vshlq_n_s16", tvec I16 8, [tvec I16 8; TScal I32], 1396%Z);
    ("vshlq_n_s32", tvec I32 4, [tvec I32 4; TScal I32], 1397%Z);
    ("vshlq_n_s64", tvec I64 2, [tvec I64 2; TScal I32], 1398%Z);
    ("vshlq_n_u8", tvec U8 16, [tvec U8 16; TScal I32], 1399%Z);
    ("vshlq_n_u16", tvec U16 8, [tvec U16 8; TScal I32], 1400%Z);
    ("vshlq_n_u32", tvec U32 4, [tvec U32 4; TScal I32], 1401%Z);
    ("vshlq_n_u64", tvec U64 2, [tvec U64 2; TScal I32], 1402%Z);
    ("vqshl_s8", tvec I8 8, [tvec I8 8; tvec I8 8], 1405%Z);
    ("vqshl_s16", tvec I16 4, [tvec I16 4; tvec I16 4], 1406%Z);
    ("vqshl_s32", tvec I32 2, [tvec I32 2; tvec I32 2], 1407%Z);
    ("vqshl_s64", tvec I64 1, [tvec I64 1; tvec I64 1], 1408%Z);
    ("vqshl_u8", tvec U8 8, [tvec U8 8; tvec I8 8], 1409%Z);
    ("vqshl_u16", tvec U16 4, [tvec U16 4; tvec I16 4], 1410%Z);
    ("vqshl_u32", tvec U32 2, [tvec U32 2; tvec I32 2], 1411%Z);
    ("vqshl_u64", tvec U64 1, [tvec U64 1; tvec I64 1], 1412%Z);
    ("vqshl_n_s8", tvec I8 8, [tvec I8 8; TScal I32], 1413%Z);
    ("vqshl_n_s16", tvec I16 4, [tvec I16 4; TScal I32], 1414%Z);
    ("vqshl_n_s32", tvec I32 2, [tvec I32 2; TScal I32], 1415%Z);
    ("vqshl_n_s64", tvec I64 1, [tvec I64 1; TScal I32], 1416%Z);
    ("vqshl_n_u8", tvec U8 8, [tvec U8 8; TScal I32], 1417%Z);
    ("vqshl_n_u16", tvec U16 4, [tvec U16 4; TScal I32], 1418%Z);
    ("vqshl_n_u32", tvec U32 2, [tvec U32 2; TScal I32], 1419%Z);
    ("vqshl_n_u64", tvec U64 1, [tvec U64 1; TScal I32], 1420%Z);
    ("vqshlq_s8", tvec I8 16, [tvec I8 16; tvec I8 16], 1423%Z);
    ("vqshlq_s16", tvec I16 8, [tvec I16 8; tvec I16 8], 1424%Z);
    ("vqshlq_s32", tvec I32 4, [tvec I32 4; tvec I32 4], 1425%Z);
    ("vqshlq_s64", tvec I64 2, [tvec I64 2; tvec I64 2], 1426%Z);
    ("vqshlq_u8", tvec U8 16, [tvec U8 16; tvec I8 16], 1427%Z);
    ("vqshlq_u16", tvec U16 8, [tvec U16 8; tvec I16 8], 1428%Z);
    ("vqshlq_u32", tvec U32 4, [tvec U32 4; tvec I32 4], 1429%Z);
    ("vqshlq_u64", tvec U64 2, [tvec U64 2; tvec I64 2], 1430%Z);
    ("vqshlq_n_s8", tvec I8 16, [tvec I8 16; TScal I32], 1431%Z);
    ("vqshlq_n_s16", tvec I16 8, [tvec I16 8; TScal I32], 1432%Z);
    ("vqshlq_n_s32", tvec I32 4, [tvec I32 4; TScal I32], 1433%Z);
    ("vqshlq_n_s64", tvec I64 2, [tvec I64 2; TScal I32], 1434%Z);
    ("vqshlq_n_u8", tvec U8 16, [tvec U8 16; TScal I32], 1435%Z);
    ("vqshlq_n_u16", tvec U16 8, [tvec U16 8; TScal I32], 1436%Z);
    ("vqshlq_n_u32", tvec U32 4, [tvec U32 4; TScal I32], 1437%Z);
    ("vqshlq_n_u64", tvec U64 2, [tvec U64 2; TScal I32], 1438%Z);
    ("vrshl_s8", tvec I8 8, [tvec I8 8; tvec I8 8], 1441%Z);
    ("vrshl_s16", tvec I16 4, [tvec I16 4; tvec I16 4], 1442%Z);
    ("vrshl_s32", tvec I32 2, [tvec I32 2; tvec I32 2], 1443%Z);
    ("vrshl_s64", tvec I64 1, [tvec I64 1; tvec I64 1], 1444%Z);
    ("vrshl_u8", tvec U8 8, [tvec U8 8; tvec I8 8], 1445%Z);
    ("vrshl_u16", tvec U16 4, [tvec U16 4; tvec I16 4], 1446%Z);
    ("vrshl_u32", tvec U32 2, [tvec U32 2; tvec I32 2], 1447%Z);
    ("vrshl_u64", tvec U64 1, [tvec U64 1; tvec I64 1], 1448%Z);
    ("vrshlq_s8", tvec I8 16, [tvec I8 16; tvec I8 16], 1451%Z);
    ("vrshlq_s16", tvec I16 8, [tvec I16 8; tvec I16 8], 1452%Z);
    ("vrshlq_s32", tvec I32 4, [tvec I32 4; tvec I32 4], 1453%Z);
    ("vrshlq_s64", tvec I64 2, [tvec I64 2; tvec I64 2], 1454%Z);
    ("vrshlq_u8", tvec U8 16, [tvec U8 16; tvec I8 16], 1455%Z);
    ("vrshlq_u16", tvec U16 8, [tvec U16 8; tvec I16 8], 1456%Z);
    ("vrshlq_u32", tvec U32 4, [tvec U32 4; tvec I32 4], 1457%Z);
    ("vrshlq_u64", tvec U64 2, [tvec U64 2; tvec I64 2], 1458%Z);
    ("vqrshl_s8", tvec I8 8, [tvec I8 8; tvec I8 8], 1461%Z);
    ("vqrshl_s16", tvec I16 4, [tvec I16 4; tvec I16 4], 1462%Z);
    ("vqrshl_s32", tvec I32 2, [tvec I32 2; tvec I32 2], 1463%Z);
    ("vqrshl_s64", tvec I64 1, [tvec I64 1; tvec I64 1], 1464%Z);
    ("vqrshl_u8", tvec U8 8, [tvec U8 8; tvec I8 8], 1465%Z);
    ("vqrshl_u16", tvec U16 4, [tvec U16 4; tvec I16 4], 1466%Z);
    ("vqrshl_u32", tvec U32 2, [tvec U32 2; tvec I32 2], 1467%Z);
    ("vqrshl_u64", tvec U64 1, [tvec U64 1; tvec I64 1], 1468%Z);
    ("vqrshlq_s8", tvec I8 16, [tvec I8 16; tvec I8 16], 1471%Z);
    ("vqrshlq_s16", tvec I16 8, [tvec I16 8; tvec I16 8], 1472%Z);
    ("vqrshlq_s32", tvec I32 4, [tvec I32 4; tvec I32 4], 1473%Z);
    ("vqrshlq_s64", tvec I64 2, [tvec I64 2; tvec I64 2], 1474%Z);
    ("vqrshlq_u8", tvec U8 16, [tvec U8 16; tvec I8 16], 1475%Z);
    ("vqrshlq_u16", tvec U16 8, [tvec U16 8; tvec I16 8], 1476%Z);
    ("vqrshlq_u32", tvec U32 4, [tvec U32 4; tvec I32 4], 1477%Z);
    ("vqrshlq_u64", tvec U64 2, [tvec U64 2; tvec I64 2], 1478%Z);
    ("vqshl_n_s8", tvec I8 8, [tvec I8 8; TScal I32], 1481%Z);
    ("vqshl_n_s16", tvec I16 4, [tvec I16 4; TScal I32], 1482%Z);
    ("vqshl_n_s32", tvec I32 2, [tvec I32 2; TScal I32], 1483%Z);
    ("vqshl_n_s64", tvec I64 1, [tvec I64 1; TScal I32], 1484%Z);
    ("vqshl_n_u8", tvec U8 8, [tvec U8 8; TScal I32], 1485%Z);
    ("vqshl_n_u16", tvec U16 4, [tvec U16 4; TScal I32], 1486%Z);
    ("vqshl_n_u32", tvec U32 2, [tvec U32 2; TScal I32], 1487%Z);
    ("vqshl_n_u64", tvec U64 1, [tvec U64 1; TScal I32], 1488%Z);
    ("vqshlq_n_s8", tvec I8 16, [tvec I8 16; TScal I32], 1491%Z);
    ("vqshlq_n_s16", tvec I16 8, [tvec I16 8; TScal I32], 1492%Z);
    ("vqshlq_n_s32", tvec I32 4, [tvec I32 4; TScal I32], 1493%Z);
    ("vqshlq_n_s64", tvec I64 2, [tvec I64 2; TScal I32], 1494%Z);
    ("vqshlq_n_u8", tvec U8 16, [tvec U8 16; TScal I32], 1495%Z);
    ("vqshlq_n_u16", tvec U16 8, [tvec U16 8; TScal I32], 1496%Z);
    ("vqshlq_n_u32", tvec U32 4, [tvec U32 4; TScal I32], 1497%Z);
    ("vqshlq_n_u64", tvec U64 2, [tvec U64 2; TScal I32], 1498%Z);
    ("vqshlu_n_s8", tvec U8 8, [tvec I8 8; TScal I32], 1501%Z);
    ("vqshlu_n_s16", tvec U16 4, [tvec I16 4; TScal I32], 1502%Z);
    ("vqshlu_n_s32", tvec U32 2, [tvec I32 2; TScal I32], 1503%Z);
    ("vqshlu_n_s64", tvec U64 1, [tvec I64 1; TScal I32], 1504%Z);
    ("vqshluq_n_s8", tvec U8 16, [tvec I8 16; TScal I32], 1507%Z);
    ("vqshluq_n_s16", tvec U16 8, [tvec I16 8; TScal I32], 1508%Z);
    ("vqshluq_n_s32", tvec U32 4, [tvec I32 4; TScal I32], 1509%Z);
    ("vqshluq_n_s64", tvec U64 2, [tvec I64 2; TScal I32], 1510%Z);
    ("vshll_n_s8", tvec I16 8, [tvec I8 8; TScal I32], 1513%Z);
    ("vshll_n_s16", tvec I32 4, [tvec I16 4; TScal I32], 1514%Z);
    ("vshll_n_s32", tvec I64 2, [tvec I32 2; TScal I32], 1515%Z);
    ("vshll_n_u8", tvec U16 8, [tvec U8 8; TScal I32], 1516%Z);
    ("vshll_n_u16", tvec U32 4, [tvec U16 4; TScal I32], 1517%Z);
    ("vshll_n_u32", tvec U64 2, [tvec U32 2; TScal I32], 1518%Z);
    ("vshr_n_s8", tvec I8 8, [tvec I8 8; TScal I32], 1521%Z);
    ("vshr_n_s16", tvec I16 4, [tvec I16 4; TScal I32], 1522%Z);
    ("vshr_n_s32", tvec I32 2, [tvec I32 2; TScal I32], 1523%Z);
    ("vshr_n_s64", tvec I64 1, [tvec I64 1; TScal I32], 1524%Z);
    ("vshr_n_u8", tvec U8 8, [tvec U8 8; TScal I32], 1525%Z);
    ("vshr_n_u16", tvec U16 4, [tvec U16 4; TScal I32], 1526%Z);
    ("vshr_n_u32", tvec U32 2, [tvec U32 2; TScal I32], 1527%Z);
    ("vshr_n_u64", tvec U64 1, [tvec U64 1; TScal I32], 1528%Z);
    ("vshrq_n_s8", tvec I8 16, [tvec I8 16; TScal I32], 1531%Z);
    ("vshrq_n_s16", tvec I16 8, [tvec I16 8; TScal I32], 1532%Z);
    ("vshrq_n_s32", tvec I32 4, [tvec I32 4; TScal I32], 1533%Z);
    ("vshrq_n_s64", tvec I64 2, [tvec I64 2; TScal I32], 1534%Z);
    ("vshrq_n_u8", tvec U8 16, [tvec U8 16; TScal I32], 1535%Z);
    ("vshrq_n_u16", tvec U16 8, [tvec U16 8; TScal I32], 1536%Z);
    ("vshrq_n_u32", tvec U32 4, [tvec U32 4; TScal I32], 1537%Z);
    ("vshrq_n_u64", tvec U64 2, [tvec U64 2; TScal I32], 1538%Z);
    ("vrshr_n_s8", tvec I8 8, [tvec I8 8; TScal I32], 1541%Z);
    ("vrshr_n_s16", tvec I16 4, [tvec I16 4; TScal I32], 1542%Z);
    ("vrshr_n_s32", tvec I32 2, [tvec I32 2; TScal I32], 1543%Z);
    ("vrshr_n_s64", tvec I64 1, [tvec I64 1; TScal I32], 1544%Z);
    ("vrshr_n_u8", tvec U8 8, [tvec U8 8; TScal I32], 1545%Z);
    ("vrshr_n_u16", tvec U16 4, [tvec U16 4; TScal I32], 1546%Z);
    ("vrshr_n_u32", tvec U32 2, [tvec U32 2; TScal I32], 1547%Z);
    ("vrshr_n_u64", tvec U64 1, [tvec U64 1; TScal I32], 1548%Z);
    ("vrshrq_n_s8", tvec I8 16, [tvec I8 16; TScal I32], 1551%Z);
    ("vrshrq_n_s16", tvec I16 8, [tvec I16 8; TScal I32], 1552%Z);
    ("vrshrq_n_s32", tvec I32 4, [tvec I32 4; TScal I32], 1553%Z);
    ("vrshrq_n_s64", tvec I64 2, [tvec I64 2; TScal I32], 1554%Z);
    ("vrshrq_n_u8", tvec U8 16, [tvec U8 16; TScal I32], 1555%Z);
    ("vrshrq_n_u16", tvec U16 8, [tvec U16 8; TScal I32], 1556%Z);
    ("vrshrq_n_u32", tvec U32 4, [tvec U32 4; TScal I32], 1557%Z);
    ("vrshrq_n_u64", tvec U64 2, [tvec U64 2; TScal I32], 1558%Z);
    ("vsra_n_s8", tvec I8 8, [tvec I8 8; tvec I8 8; TScal I32], 1561%Z);
    ("vsra_n_s16", tvec I16 4, [tvec I16 4; tvec I16 4; TScal I32], 1562%Z);
    ("vsra_n_s32", tvec I32 2, [tvec I32 2; tvec I32 2; TScal I32], 1563%Z);
    ("vsra_n_s64", tvec I64 1, [tvec I64 1; tvec I64 1; TScal I32], 1564%Z);
    ("vsra_n_u8", tvec U8 8, [tvec U8 8; tvec U8 8; TScal I32], 1565%Z);
    ("vsra_n_u16", tvec U16 4, [tvec U16 4; tvec U16 4; TScal I32], 1566%Z);
    ("vsra_n_u32", tvec U32 2, [tvec U32 2; tvec U32 2; TScal I32], 1567%Z);
    ("vsra_n_u64", tvec U64 1, [tvec U64 1; tvec U64 1; TScal I32], 1568%Z);
    ("vsraq_n_s8", tvec I8 16, [tvec I8 16; tvec I8 16; TScal I32], 1571%Z);
    ("vsraq_n_s16", tvec I16 8, [tvec I16 8; tvec I16 8; TScal I32], 1572%Z);
    ("vsraq_n_s32", tvec I32 4, [tvec I32 4; tvec I32 4; TScal I32], 1573%Z);
    ("vsraq_n_s64", tvec I64 2, [tvec I64 2; tvec I64 2; TScal I32], 1574%Z);
    ("vsraq_n_u8", tvec U8 16, [tvec U8 16; tvec U8 16; TScal I32], 1575%Z);
    ("vsraq_n_u16", tvec U16 8, [tvec U16 8; tvec U16 8; TScal I32], 1576%Z);
    ("vsraq_n_u32", tvec U32 4, [tvec U32 4; tvec U32 4; TScal I32], 1577%Z);
    ("vsraq_n_u64", tvec U64 2, [tvec U64 2; tvec U64 2; TScal I32], 1578%Z);
    ("vrsra_n_s8", tvec I8 8, [tvec I8 8; tvec I8 8; TScal I32], 1581%Z);
    ("vrsra_n_s16", tvec I16 4, [tvec I16 4; tvec I16 4; TScal I32], 1582%Z);
    ("vrsra_n_s32", tvec I32 2, [tvec I32 2; tvec I32 2; TScal I32], 1583%Z);
    ("vrsra_n_s64", tvec I64 1, [tvec I64 1; tvec I64 1; TScal I32], 1584%Z);
    ("vrsra_n_u8", tvec U8 8, [tvec U8 8; tvec U8 8; TScal I32], 1585%Z);
    ("vrsra_n_u16", tvec U16 4, [tvec U16 4; tvec U16 4; TScal I32], 1586%Z);
    ("vrsra_n_u32", tvec U32 2, [tvec U32 2; tvec U32 2; TScal I32], 1587%Z);
    ("vrsra_n_u64", tvec U64 1, [tvec U64 1; tvec U64 1; TScal I32], 1588%Z);
    ("vrsraq_n_s8", tvec I8 16, [tvec I8 16; tvec I8 16; TScal I32], 1591%Z);
    ("vrsraq_n_s16", tvec I16 8, [tvec I16 8; tvec I16 8; TScal I32], 1592%Z);
    ("vrsraq_n_s32", tvec I32 4, [tvec I32 4; tvec I32 4; TScal I32], 1593%Z);
    ("vrsraq_n_s64", tvec I64 2, [tvec I64 2; tvec I64 2; TScal I32], 1594%Z);
    ("vrsraq_n_u8", tvec U8 16, [tvec U8 16; tvec U8 16; TScal I32], 1595%Z);
    ("vrsraq_n_u16", tvec U16 8, [tvec U16 8; tvec U16 8; TScal I32], 1596%Z);
    ("vrsraq_n_u32", tvec U32 4, [tvec U32 4; tvec U32 4; TScal I32], 1597%Z);
    ("vrsraq_n_u64", tvec U64 2, [tvec U64 2; tvec U64 2; TScal I32], 1598%Z);
    ("vshrn_n_s16", tvec I8 8, [tvec I16 8; TScal I32], 1601%Z);
    ("vshrn_n_s32", tvec I16 4, [tvec I32 4; TScal I32], 1602%Z);
    ("vshrn_n_s64", tvec I32 2, [tvec I64 2; TScal I32], 1603%Z);
    ("vshrn_n_u16", tvec U8 8, [tvec U16 8; TScal I32], 1604%Z);
    ("vshrn_n_u32", tvec U16 4, [tvec U32 4; TScal I32], 1605%Z);
    ("vshrn_n_u64", tvec U32 2, [tvec U64 2; TScal I32], 1606%Z);
    ("vqshrun_n_s16", tvec U8 8, [tvec I16 8; TScal I32], 1609%Z);
    ("vqshrun_n_s32", tvec U16 4, [tvec I32 4; TScal I32], 1610%Z);
    ("vqshrun_n_s64", tvec U32 2, [tvec I64 2; TScal I32], 1611%Z);
    ("vqrshrun_n_s16", tvec U8 8, [tvec I16 8; TScal I32], 1614%Z);
    ("vqrshrun_n_s32", tvec U16 4, [tvec I32 4; TScal I32], 1615%Z);
    ("vqrshrun_n_s64", tvec U32 2, [tvec I64 2; TScal I32], 1616%Z);
    ("vqshrn_n_s16", tvec I8 8, [tvec I16 8; TScal I32], 1619%Z);
    ("vqshrn_n_s32", tvec I16 4, [tvec I32 4; TScal I32], 1620%Z);
    ("vqshrn_n_s64", tvec I32 2, [tvec I64 2; TScal I32], 1621%Z);
    ("vqshrn_n_u16", tvec U8 8, [tvec U16 8; TScal I32], 1622%Z);
    ("vqshrn_n_u32", tvec U16 4, [tvec U32 4; TScal I32], 1623%Z);
    ("vqshrn_n_u64", tvec U32 2, [tvec U64 2; TScal I32], 1624%Z);
    ("vrshrn_n_s16", tvec I8 8, [tvec I16 8; TScal I32], 1627%Z);
    ("vrshrn_n_s32", tvec I16 4, [tvec I32 4; TScal I32], 1628%Z);
    ("vrshrn_n_s64", tvec I32 2, [tvec I64 2; TScal I32], 1629%Z);
    ("vrshrn_n_u16", tvec U8 8, [tvec U16 8; TScal I32], 1630%Z);
    ("vrshrn_n_u32", tvec U16 4, [tvec U32 4; TScal I32], 1631%Z);
    ("vrshrn_n_u64", tvec U32 2, [tvec U64 2; TScal I32], 1632%Z);
    ("vqrshrn_n_s16", tvec I8 8, [tvec I16 8; TScal I32], 1635%Z);
    ("vqrshrn_n_s32", tvec I16 4, [tvec I32 4; TScal I32], 1636%Z);
    ("vqrshrn_n_s64", tvec I32 2, [tvec I64 2; TScal I32], 1637%Z);
    ("vqrshrn_n_u16", tvec U8 8, [tvec U16 8; TScal I32], 1638%Z);
    ("vqrshrn_n_u32", tvec U16 4, [tvec U32 4; TScal I32], 1639%Z);
    ("vqrshrn_n_u64", tvec U32 2, [tvec U64 2; TScal I32], 1640%Z);
    ("vsri_n_s8", tvec I8 8, [tvec I8 8; tvec I8 8; TScal I32], 1643%Z);
    ("vsri_n_s16", tvec I16 4, [tvec I16 4; tvec I16 4; TScal I32], 1644%Z);
    ("vsri_n_s32", tvec I32 2, [tvec I32 2; tvec I32 2; TScal I32], 1645%Z);
    ("vsri_n_s64", tvec I64 1, [tvec I64 1; tvec I64 1; TScal I32], 1646%Z);
    ("vsri_n_u8", tvec U8 8, [tvec U8 8; tvec U8 8; TScal I32], 1647%Z);
    ("vsri_n_u16", tvec U16 4, [tvec U16 4; tvec U16 4; TScal I32], 1648%Z);
    ("vsri_n_u32", tvec U32 2, [tvec U32 2; tvec U32 2; TScal I32], 1649%Z);
    ("vsri_n_u64", tvec U64 1, [tvec U64 1; tvec U64 1; TScal I32], 1650%Z);
    ("vsriq_n_s8", tvec I8 16, [tvec I8 16; tvec I8 16; TScal I32], 1653%Z);
    ("vsriq_n_s16", tvec I16 8, [tvec I16 8; tvec I16 8; TScal I32], 1654%Z);
    ("vsriq_n_s32", tvec I32 4, [tvec I32 4; tvec I32 4; TScal I32], 1655%Z);
    ("vsriq_n_s64", tvec I64 2, [tvec I64 2; tvec I64 2; TScal I32], 1656%Z);
    ("vsriq_n_u8", tvec U8 16, [tvec U8 16; tvec U8 16; TScal I32], 1657%Z);
    ("vsriq_n_u16", tvec U16 8, [tvec U16 8; tvec U16 8; TScal I32], 1658%Z);
    ("vsriq_n_u32", tvec U32 4, [tvec U32 4; tvec U32 4; TScal I32], 1659%Z);
    ("vsriq_n_u64", tvec U64 2, [tvec U64 2; tvec U64 2; TScal I32], 1660%Z);
    ("vsli_n_s8", tvec I8 8, [tvec I8 8; tvec I8 8; TScal I32], 1663%Z);
    ("vsli_n_s16", tvec I16 4, [tvec I16 4; tvec I16 4; TScal I32], 1664%Z);
    ("vsli_n_s32", tvec I32 2, [tvec I32 2; tvec I32 2; TScal I32], 1665%Z);
    ("vsli_n_s64", tvec I64 1, [tvec I64 1; tvec I64 1; TScal I32], 1666%Z);
    ("vsli_n_u8", tvec U8 8, [tvec U8 8; tvec U8 8; TScal I32], 1667%Z);
    ("vsli_n_u16", tvec U16 4, [tvec U16 4; tvec U16 4; TScal I32], 1668%Z);
    ("vsli_n_u32", tvec U32 2, [tvec U32 2; tvec U32 2; TScal I32], 1669%Z);
    ("vsli_n_u64", tvec U64 1, [tvec U64 1; tvec U64 1; TScal I32], 1670%Z);
    ("vsliq_n_s8", tvec I8 16, [tvec I8 16; tvec I8 16; TScal I32], 1673%Z);
    ("vsliq_n_s16", tvec I16 8, [tvec I16 8; tvec I16 8; TScal I32], 1674%Z);
    ("vsliq_n_s32", tvec I32 4, [tvec I32 4; tvec I32 4; TScal I32], 1675%Z);
    ("vsliq_n_s64", tvec I64 2, [tvec I64 2; tvec I64 2; TScal I32], 1676%Z);
    ("vsliq_n_u8", tvec U8 16, [tvec U8 16; tvec U8 16; TScal I32], 1677%Z);
    ("vsliq_n_u16", tvec U16 8, [tvec U16 8; tvec U16 8; TScal I32], 1678%Z);
    ("vsliq_n_u32", tvec U32 4, [tvec U32 4; tvec U32 4; TScal I32], 1679%Z);
    ("vsliq_n_u64", tvec U64 2, [tvec U64 2; tvec U64 2; TScal I32], 1680%Z);
    ("vget_low_s8", tvec I8 8, [tvec I8 16], 1687%Z);
    ("vget_low_s16", tvec I16 4, [tvec I16 8], 1688%Z);
    ("vget_low_s32", tvec I32 2, [tvec I32 4], 1689%Z);
    ("vget_low_s64", tvec I64 1, [tvec I64 2], 1690%Z);
    ("vget_low_u8", tvec U8 8, [tvec U8 16], 1691%Z);
    ("vget_low_u16", tvec U16 4, [tvec U16 8], 1692%Z);
    ("vget_low_u32", tvec U32 2, [tvec U32 4], 1693%Z);
    ("vget_low_u64", tvec U64 1, [tvec U64 2], 1694%Z);
    ("vget_low_f32", tvec F32 2, [tvec F32 4], 1698%Z);
    ("vget_low_f64", tvec F64 1, [tvec F64 2], 1699%Z);
    ("vget_high_s8", tvec I8 8, [tvec I8 16], 1702%Z);
    ("vget_high_s16", tvec I16 4, [tvec I16 8], 1703%Z);
    ("vget_high_s32", tvec I32 2, [tvec I32 4], 1704%Z);
    ("vget_high_s64", tvec I64 1, [tvec I64 2], 1705%Z);
    ("vget_high_u8", tvec U8 8, [tvec U8 16], 1706%Z);
    ("vget_high_u16", tvec U16 4, [tvec U16 8], 1707%Z);
    ("vget_high_u32", tvec U32 2, [tvec U32 4], 1708%Z);
    ("vget_high_u64", tvec U64 1, [tvec U64 2], 1709%Z);
    ("vget_high_f32", tvec F32 2, [tvec F32 4], 1713%Z);
    ("vget_high_f64", tvec F64 1, [tvec F64 2], 1714%Z);
    ("vget_lane_u8", TScal U8, [tvec U8 8; TScal I32], 1717%Z);
    ("vget_lane_u16", TScal U16, [tvec U16 4; TScal I32], 1718%Z);
    ("vget_lane_u32", TScal U32, [tvec U32 2; TScal I32], 1719%Z);
    ("vget_lane_u64", TScal U64, [tvec U64 1; TScal I32], 1720%Z);
    ("vget_lane_s8", TScal I8, [tvec I8 8; TScal I32], 1721%Z);
    ("vget_lane_s16", TScal I16, [tvec I16 4; TScal I32], 1722%Z);
    ("vget_lane_s32", TScal I32, [tvec I32 2; TScal I32], 1723%Z);
    ("vget_lane_s64", TScal I64, [tvec I64 1; TScal I32], 1724%Z);
    ("vget_lane_f32", TScal F32, [tvec F32 2; TScal I32], 1725%Z);
    ("vget_lane_f64", TScal F64, [tvec F64 1; TScal I32], 1726%Z);
    ("vgetq_lane_u8", TScal U8, [tvec U8 16; TScal I32], 1729%Z);
    ("vgetq_lane_u16", TScal U16, [tvec U16 8; TScal I32], 1730%Z);
    ("vgetq_lane_u32", TScal U32, [tvec U32 4; TScal I32], 1731%Z);
    ("vgetq_lane_u64", TScal U64, [tvec U64 2; TScal I32], 1732%Z);
    ("vgetq_lane_s8", TScal I8, [tvec I8 16; TScal I32], 1733%Z);
    ("vgetq_lane_s16", TScal I16, [tvec I16 8; TScal I32], 1734%Z);
    ("vgetq_lane_s32", TScal I32, [tvec I32 4; TScal I32], 1735%Z);
    ("vgetq_lane_s64", TScal I64, [tvec I64 2; TScal I32], 1736%Z);
    ("vgetq_lane_f32", TScal F32, [tvec F32 4; TScal I32], 1737%Z);
    ("vgetq_lane_f64", TScal F64, [tvec F64 2; TScal I32], 1738%Z);
    ("vset_lane_u8", tvec U8 8, [TScal U8; tvec U8 8; TScal I32], 1741%Z);
    ("vset_lane_u16", tvec U16 4, [TScal U16; tvec U16 4; TScal I32], 1742%Z);
    ("vset_lane_u32", tvec U32 2, [TScal U32; tvec U32 2; TScal I32], 1743%Z);
    ("vset_lane_u64", tvec U64 1, [TScal U64; tvec U64 1; TScal I32], 1744%Z);
    ("vset_lane_s8", tvec I8 8, [TScal I8; tvec I8 8; TScal I32], 1745%Z);
    ("vset_lane_s16", tvec I16 4, [TScal I16; tvec I16 4; TScal I32], 1746%Z);
    ("vset_lane_s32", tvec I32 2, [TScal I32; tvec I32 2; TScal I32], 1747%Z);
    ("vset_lane_s64", tvec I64 1, [TScal I64; tvec I64 1; TScal I32], 1748%Z);
    ("vset_lane_f32", tvec F32 2, [TScal F32; tvec F32 2; TScal I32], 1749%Z);
    ("vset_lane_f64", tvec F64 1, [TScal F64; tvec F64 1; TScal I32], 1750%Z);
    ("vsetq_lane_u8", tvec U8 16, [TScal U8; tvec U8 16; TScal I32], 1753%Z);
    ("vsetq_lane_u16", tvec U16 8, [TScal U16; tvec U16 8; TScal I32], 1754%Z);
    ("vsetq_lane_u32", tvec U32 4, [TScal U32; tvec U32 4; TScal I32], 1755%Z);
    ("vsetq_lane_u64", tvec U64 2, [TScal U64; tvec U64 2; TScal I32], 1756%Z);
    ("vsetq_lane_s8", tvec I8 16, [TScal I8; tvec I8 16; TScal I32], 1757%Z);
    ("vsetq_lane_s16", tvec I16 8, [TScal I16; tvec I16 8; TScal I32], 1758%Z);
    ("vsetq_lane_s32", tvec I32 4, [TScal I32; tvec I32 4; TScal I32], 1759%Z);
    ("vsetq_lane_s64", tvec I64 2, [TScal I64; tvec I64 2; TScal I32], 1760%Z);
    ("vsetq_lane_f32", tvec F32 4, [TScal F32; tvec F32 4; TScal I32], 1761%Z);
    ("vsetq_lane_f64", tvec F64 2, [TScal F64; tvec F64 2; TScal I32], 1762%Z);
    ("vext_s8", tvec I8 8, [tvec I8 8; tvec I8 8; TScal I32], 1769%Z);
    ("vext_s16", tvec I16 4, [tvec I16 4; tvec I16 4; TScal I32], 1770%Z);
    ("vext_s32", tvec I32 2, [tvec I32 2; tvec I32 2; TScal I32], 1771%Z);
    ("vext_s64", tvec I64 1, [tvec I64 1; tvec I64 1; TScal I32], 1772%Z);
    ("vext_u8", tvec U8 8, [tvec U8 8; tvec U8 8; TScal I32], 1773%Z);
    ("vext_u16", tvec U16 4, [tvec U16 4; tvec U16 4; TScal I32], 1774%Z);
    ("vext_u32", tvec U32 2, [tvec U32 2; tvec U32 2; TScal I32], 1775%Z);
    ("vext_u64", tvec U64 1, [tvec U64 1; tvec U64 1; TScal I32], 1776%Z);
    ("vext_f32", tvec F32 2, [tvec F32 2; tvec F32 2; TScal I32], 1777%Z);
    ("vext_f64", tvec F64 1, [tvec F64 1; tvec F64 1; TScal I32], 1778%Z);
    ("vextq_s8", tvec I8 16, [tvec I8 16; tvec I8 16; TScal I32], 1784%Z);
    ("vextq_s16", tvec I16 8, [tvec I16 8; tvec I16 8; TScal I32], 1785%Z);
    ("vextq_s32", tvec I32 4, [tvec I32 4; tvec I32 4; TScal I32], 1786%Z);
    ("vextq_s64", tvec I64 2, [tvec I64 2; tvec I64 2; TScal I32], 1787%Z);
    ("vextq_u8", tvec U8 16, [tvec U8 16; tvec U8 16; TScal I32], 1788%Z);
    ("vextq_u16", tvec U16 8, [tvec U16 8; tvec U16 8; TScal I32], 1789%Z);
    ("vextq_u32", tvec U32 4, [tvec U32 4; tvec U32 4; TScal I32], 1790%Z);
    ("vextq_u64", tvec U64 2, [tvec U64 2; tvec U64 2; TScal I32], 1791%Z);
    ("vextq_f32", tvec F32 4, [tvec F32 4; tvec F32 4; TScal I32], 1792%Z);
    ("vextq_f64", tvec F64 2, [tvec F64 2; tvec F64 2; TScal I32], 1793%Z);
    ("vtbl1_s8", tvec I8 8, [tvec I8 8; tvec I8 8], 1799%Z);
    ("vtbl1_u8", tvec U8 8, [tvec U8 8; tvec U8 8], 1800%Z);
    ("vtbl2_s8", tvec I8 8, [tvecs 2 I8 8; tvec I8 8], 1803%Z);
    ("vtbl2_u8", tvec U8 8, [tvecs 2 U8 8; tvec U8 8], 1804%Z);
    ("vtbl3_s8", tvec I8 8, [tvecs 3 I8 8; tvec I8 8], 1807%Z);
    ("vtbl3_u8", tvec U8 8, [tvecs 3 U8 8; tvec U8 8], 1808%Z);
    ("vtbl4_s8", tvec I8 8, [tvecs 4 I8 8; tvec I8 8], 1811%Z);
    ("vtbl4_u8", tvec U8 8, [tvecs 4 U8 8; tvec U8 8], 1812%Z);
    ("vtbx1_s8", tvec I8 8, [tvec I8 8; tvec I8 8; tvec I8 8], 1815%Z);
    ("vtbx1_u8", tvec U8 8, [tvec U8 8; tvec U8 8; tvec U8 8], 1816%Z);
    ("vtbx2_s8", tvec I8 8, [tvec I8 8; tvecs 2 I8 8; tvec I8 8], 1819%Z);
    ("vtbx2_u8", tvec U8 8, [tvec U8 8; tvecs 2 U8 8; tvec U8 8], 1820%Z);
    ("vtbx3_s8", tvec I8 8, [tvec I8 8; tvecs 3 I8 8; tvec I8 8], 1823%Z);
    ("vtbx3_u8", tvec U8 8, [tvec U8 8; tvecs 3 U8 8; tvec U8 8], 1824%Z);
    ("vtbx4_s8", tvec I8 8, [tvec I8 8; tvecs 4 I8 8; tvec I8 8], 1827%Z);
    ("vtbx4_u8", tvec U8 8, [tvec U8 8; tvecs 4 U8 8; tvec U8 8], 1828%Z);
    ("vqtbl1_s8", tvec I8 8, [tvec I8 16; tvec U8 8], 1831%Z);
    ("vqtbl1_u8", tvec U8 8, [tvec U8 16; tvec U8 8], 1832%Z);
    ("vqtbl2_s8", tvec I8 8, [tvecs 2 I8 16; tvec U8 8], 1835%Z);
    ("vqtbl2_u8", tvec U8 8, [tvecs 2 U8 16; tvec U8 8], 1836%Z);
    ("vqtbl3_s8", tvec I8 8, [tvecs 3 I8 16; tvec U8 8], 1839%Z);
    ("vqtbl3_u8", tvec U8 8, [tvecs 3 U8 16; tvec U8 8], 1840%Z);
    ("vqtbl4_s8", tvec I8 8, [tvecs 4 I8 16; tvec U8 8], 1843%Z);
    ("vqtbl4_u8", tvec U8 8, [tvecs 4 U8 16; tvec U8 8], 1844%Z);
    ("vrev16_s8", tvec I8 8, [tvec I8 8], 1847%Z);
    ("vrev16_u8", tvec U8 8, [tvec U8 8], 1848%Z);
    ("vrev16q_s8", tvec I8 16, [tvec I8 16], 1851%Z);
    ("vrev16q_u8", tvec U8 16, [tvec U8 16], 1852%Z);
    ("vrev32_s8", tvec I8 8, [tvec I8 8], 1855%Z);
    ("vrev32_s16", tvec I16 4, [tvec I16 4], 1856%Z);
    ("vrev32_u8", tvec U8 8, [tvec U8 8], 1857%Z);
    ("vrev32_u16", tvec U16 4, [tvec U16 4], 1858%Z);
    ("vrev32q_s8", tvec I8 16, [tvec I8 16], 1861%Z);
    ("vrev32q_s16", tvec I16 8, [tvec I16 8], 1862%Z);
    ("vrev32q_u8", tvec U8 16, [tvec U8 16], 1863%Z);
    ("vrev32q_u16", tvec U16 8, [tvec U16 8], 1864%Z);
    ("vrev64_s8", tvec I8 8, [tvec I8 8], 1867%Z);
    ("vrev64_s16", tvec I16 4, [tvec I16 4], 1868%Z);
    ("vrev64_s32", tvec I32 2, [tvec I32 2], 1869%Z);
    ("vrev64_u8", tvec U8 8, [tvec U8 8], 1870%Z);
    ("vrev64_u16", tvec U16 4, [tvec U16 4], 1871%Z);
    ("vrev64_u32", tvec U32 2, [tvec U32 2], 1872%Z);
    ("vrev64_f32", tvec F32 2, [tvec F32 2], 1873%Z);
    ("vrev64q_s8", tvec I8 16, [tvec I8 16], 1876%Z);
    ("vrev64q_s16", tvec I16 8, [tvec I16 8], 1877%Z);
    ("vrev64q_s32", tvec I32 4, [tvec I32 4], 1878%Z);
    ("vrev64q_u8", tvec U8 16, [tvec U8 16], 1879%Z);
    ("vrev64q_u16", tvec U16 8, [tvec U16 8], 1880%Z);
    ("vrev64q_u32", tvec U32 4, [tvec U32 4], 1881%Z);
    ("vrev64q_f32", tvec F32 4, [tvec F32 4], 1882%Z);
    ("vtrn_s8", tvecs 2 I8 8, [tvec I8 8; tvec I8 8], 1885%Z);
    ("vtrn_s16", tvecs 2 I16 4, [tvec I16 4; tvec I16 4], 1886%Z);
    ("vtrn_u8", tvecs 2 U8 8, [tvec U8 8; tvec U8 8], 1887%Z);
    ("vtrn_u16", tvecs 2 U16 4, [tvec U16 4; tvec U16 4], 1888%Z);
    ("vtrn_s32", tvecs 2 I32 2, [tvec I32 2; tvec I32 2], 1889%Z);
    ("vtrn_f32", tvecs 2 F32 2, [tvec F32 2; tvec F32 2], 1890%Z);
    ("vtrn_u32", tvecs 2 U32 2, [tvec U32 2; tvec U32 2], 1891%Z);
    ("vtrnq_s8", tvecs 2 I8 16, [tvec I8 16; tvec I8 16], 1897%Z);
    ("vtrnq_s16", tvecs 2 I16 8, [tvec I16 8; tvec I16 8], 1898%Z);
    ("vtrnq_s32", tvecs 2 I32 4, [tvec I32 4; tvec I32 4], 1899%Z);
    ("vtrnq_f32", tvecs 2 F32 4, [tvec F32 4; tvec F32 4], 1900%Z);
    ("vtrnq_u8", tvecs 2 U8 16, [tvec U8 16; tvec U8 16], 1901%Z);
    ("vtrnq_u16", tvecs 2 U16 8, [tvec U16 8; tvec U16 8], 1902%Z);
    ("vtrnq_u32", tvecs 2 U32 4, [tvec U32 4; tvec U32 4], 1903%Z);
    ("vzip_s8", tvecs 2 I8 8, [tvec I8 8; tvec I8 8], 1909%Z);
    ("vzip_s16", tvecs 2 I16 4, [tvec I16 4; tvec I16 4], 1910%Z);
    ("vzip_u8", tvecs 2 U8 8, [tvec U8 8; tvec U8 8], 1911%Z);
    ("vzip_u16", tvecs 2 U16 4, [tvec U16 4; tvec U16 4], 1912%Z);
    ("vzip_s32", tvecs 2 I32 2, [tvec I32 2; tvec I32 2], 1913%Z);
    ("vzip_f32", tvecs 2 F32 2, [tvec F32 2; tvec F32 2], 1914%Z);
    ("vzip_u32", tvecs 2 U32 2, [tvec U32 2; tvec U32 2], 1915%Z);
    ("vzipq_s8", tvecs 2 I8 16, [tvec I8 16; tvec I8 16], 1918%Z);
    ("vzipq_s16", tvecs 2 I16 8, [tvec I16 8; tvec I16 8], 1919%Z);
    ("vzipq_s32", tvecs 2 I32 4, [tvec I32 4; tvec I32 4], 1920%Z);
    ("vzipq_f32", tvecs 2 F32 4, [tvec F32 4; tvec F32 4], 1921%Z);
    ("vzipq_u8", tvecs 2 U8 16, [tvec U8 16; tvec U8 16], 1922%Z);
    ("vzipq_u16", tvecs 2 U16 8, [tvec U16 8; tvec U16 8], 1923%Z);
    ("vzipq_u32", tvecs 2 U32 4, [tvec U32 4; tvec U32 4], 1924%Z);
    ("vuzp_s8", tvecs 2 I8 8, [tvec I8 8; tvec I8 8], 1930%Z);
    ("vuzp_s16", tvecs 2 I16 4, [tvec I16 4; tvec I16 4], 1931%Z);
    ("vuzp_s32", tvecs 2 I32 2, [tvec I32 2; tvec I32 2], 1932%Z);
    ("vuzp_f32", tvecs 2 F32 2, [tvec F32 2; tvec F32 2], 1933%Z);
    ("vuzp_u8", tvecs 2 U8 8, [tvec U8 8; tvec U8 8], 1934%Z);
    ("vuzp_u16", tvecs 2 U16 4, [tvec U16 4; tvec U16 4], 1935%Z);
    ("vuzp_u32", tvecs 2 U32 2, [tvec U32 2; tvec U32 2], 1936%Z);
    ("vuzpq_s8", tvecs 2 I8 16, [tvec I8 16; tvec I8 16], 1939%Z);
    ("vuzpq_s16", tvecs 2 I16 8, [tvec I16 8; tvec I16 8], 1940%Z);
    ("vuzpq_s32", tvecs 2 I32 4, [tvec I32 4; tvec I32 4], 1941%Z);
    ("vuzpq_f32", tvecs 2 F32 4, [tvec F32 4; tvec F32 4], 1942%Z);
    ("vuzpq_u8", tvecs 2 U8 16, [tvec U8 16; tvec U8 16], 1943%Z);
    ("vuzpq_u16", tvecs 2 U16 8, [tvec U16 8; tvec U16 8], 1944%Z);
    ("vuzpq_u32", tvecs 2 U32 4, [tvec U32 4; tvec U32 4], 1945%Z);
    ("vcombine_s8", tvec I8 16, [tvec I8 8; tvec I8 8], 1951%Z);
    ("vcombine_s16", tvec I16 8, [tvec I16 4; tvec I16 4], 1952%Z);
    ("vcombine_s32", tvec I32 4, [tvec I32 2; tvec I32 2], 1953%Z);
    ("vcombine_s64", tvec I64 2, [tvec I64 1; tvec I64 1], 1954%Z);
    ("vcombine_u8", tvec U8 16, [tvec U8 8; tvec U8 8], 1955%Z);
    ("vcombine_u16", tvec U16 8, [tvec U16 4; tvec U16 4], 1956%Z);
    ("vcombine_u32", tvec U32 4, [tvec U32 2; tvec U32 2], 1957%Z);
    ("vcombine_u64", tvec U64 2, [tvec U64 1; tvec U64 1], 1958%Z);
    ("vcombine_f32", tvec F32 4, [tvec F32 2; tvec F32 2], 1959%Z);
    ("vcombine_f64", tvec F64 2, [tvec F64 1; tvec F64 1], 1960%Z);
    ("vbsl_s8", tvec I8 8, [tvec U8 8; tvec I8 8; tvec I8 8], 1963%Z);
    ("vbsl_s16", tvec I16 4, [tvec U16 4; tvec I16 4; tvec I16 4], 1964%Z);
    ("vbsl_s32", tvec I32 2, [tvec U32 2; tvec I32 2; tvec I32 2], 1965%Z);
    ("vbsl_s64", tvec I64 1, [tvec U64 1; tvec I64 1; tvec I64 1], 1966%Z);
    ("vbsl_u8", tvec U8 8, [tvec U8 8; tvec U8 8; tvec U8 8], 1967%Z);
    ("vbsl_u16", tvec U16 4, [tvec U16 4; tvec U16 4; tvec U16 4], 1968%Z);
    ("vbsl_u32", tvec U32 2, [tvec U32 2; tvec U32 2; tvec U32 2], 1969%Z);
    ("vbsl_u64", tvec U64 1, [tvec U64 1; tvec U64 1; tvec U64 1], 1970%Z);
    ("vbsl_f32", tvec F32 2, [tvec U32 2; tvec F32 2; tvec F32 2], 1971%Z);
    ("vbsl_f64", tvec F64 1, [tvec U64 1; tvec F64 1; tvec F64 1], 1972%Z);
    ("vbslq_s8", tvec I8 16, [tvec U8 16; tvec I8 16; tvec I8 16], 1978%Z);
    ("vbslq_s16", tvec I16 8, [tvec U16 8; tvec I16 8; tvec I16 8], 1979%Z);
    ("vbslq_s32", tvec I32 4, [tvec U32 4; tvec I32 4; tvec I32 4], 1980%Z);
    ("vbslq_s64", tvec I64 2, [tvec U64 2; tvec I64 2; tvec I64 2], 1981%Z);
    ("vbslq_u8", tvec U8 16, [tvec U8 16; tvec U8 16; tvec U8 16], 1982%Z);
    ("vbslq_u16", tvec U16 8, [tvec U16 8; tvec U16 8; tvec U16 8], 1983%Z);
    ("vbslq_u32", tvec U32 4, [tvec U32 4; tvec U32 4; tvec U32 4], 1984%Z);
    ("vbslq_u64", tvec U64 2, [tvec U64 2; tvec U64 2; tvec U64 2], 1985%Z);
    ("vbslq_f32", tvec F32 4, [tvec U32 4; tvec F32 4; tvec F32 4], 1986%Z);
    ("vbslq_f64", tvec F64 2, [tvec U64 2; tvec F64 2; tvec F64 2], 1987%Z);
    ("vcvt_s32_f32", tvec I32 2, [tvec F32 2], 1996%Z);
    ("vcvt_u32_f32", tvec U32 2, [tvec F32 2], 1997%Z);
    ("vcvt_s64_f64", tvec I64 1, [tvec F64 1], 1998%Z);
    ("vcvt_u64_f64", tvec U64 1, [tvec F64 1], 1999%Z);
    ("vcvt_n_s32_f32", tvec I32 2, [tvec F32 2; TScal I32], 2000%Z);
    ("vcvt_n_u32_f32", tvec U32 2, [tvec F32 2; TScal I32], 2001%Z);
    ("vcvt_n_s64_f64", tvec I64 1, [tvec F64 1; TScal I32], 2002%Z);
    ("vcvt_n_u64_f64", tvec U64 1, [tvec F64 1; TScal I32], 2003%Z);
    ("vcvt_f32_s32", tvec F32 2, [tvec I32 2], 2004%Z);
    ("vcvt_f32_u32", tvec F32 2, [tvec U32 2], 2005%Z);
    ("vcvt_f64_s64", tvec F64 1, [tvec I64 1], 2006%Z);
    ("vcvt_f64_u64", tvec F64 1, [tvec U64 1], 2007%Z);
    ("vcvt_n_f32_s32", tvec F32 2, [tvec I32 2; TScal I32], 2008%Z);
    ("vcvt_n_f32_u32", tvec F32 2, [tvec U32 2; TScal I32], 2009%Z);
    ("vcvt_n_f64_s64", tvec F64 1, [tvec I64 1; TScal I32], 2010%Z);
    ("vcvt_n_f64_u64", tvec F64 1, [tvec U64 1; TScal I32], 2011%Z);
    ("vcvt_f32_f64", tvec F32 2, [tvec F64 2], 2016%Z);
    ("vcvt_high_f32_f64", tvec F32 4, [tvec F32 2; tvec F64 2], 2017%Z);
    ("vcvt_f64_f32", tvec F64 2, [tvec F32 2], 2022%Z);
    ("vcvt_high_f64_f32", tvec F64 2, [tvec F32 4], 2023%Z);
    ("vcvtq_s32_f32", tvec I32 4, [tvec F32 4], 2036%Z);
    ("vcvtq_u32_f32", tvec U32 4, [tvec F32 4], 2037%Z);
    ("vcvtq_s64_f64", tvec I64 2, [tvec F64 2], 2038%Z);
    ("vcvtq_u64_f64", tvec U64 2, [tvec F64 2], 2039%Z);
    ("vcvtq_n_s32_f32", tvec I32 4, [tvec F32 4; TScal I32], 2040%Z);
    ("vcvtq_n_u32_f32", tvec U32 4, [tvec F32 4; TScal I32], 2041%Z);
    ("vcvtq_n_s64_f64", tvec I64 2, [tvec F64 2; TScal I32], 2042%Z);
    ("vcvtq_n_u64_f64", tvec U64 2, [tvec F64 2; TScal I32], 2043%Z);
    ("vcvtq_f32_s32", tvec F32 4, [tvec I32 4], 2044%Z);
    ("vcvtq_f32_u32", tvec F32 4, [tvec U32 4], 2045%Z);
    ("vcvtq_f64_s64", tvec F64 2, [tvec I64 2], 2046%Z);
    ("vcvtq_f64_u64", tvec F64 2, [tvec U64 2], 2047%Z);
    ("vcvtq_n_f32_s32", tvec F32 4, [tvec I32 4; TScal I32], 2048%Z);
    ("vcvtq_n_f32_u32", tvec F32 4, [tvec U32 4; TScal I32], 2049%Z);
    ("vcvtq_n_f64_s64", tvec F64 2, [tvec I64 2; TScal I32], 2050%Z);
    ("vcvtq_n_f64_u64", tvec F64 2, [tvec U64 2; TScal I32], 2051%Z);
    ("vcvt_n_s32_f32", tvec I32 2, [tvec F32 2; TScal I32], 2064%Z);
    ("vcvt_n_u32_f32", tvec U32 2, [tvec F32 2; TScal I32], 2065%Z);
    ("vcvt_n_s64_f64", tvec I64 1, [tvec F64 1; TScal I32], 2066%Z);
    ("vcvt_n_u64_f64", tvec U64 1, [tvec F64 1; TScal I32], 2067%Z);
    ("vcvt_n_f32_s32", tvec F32 2, [tvec I32 2; TScal I32], 2068%Z);
    ("vcvt_n_f32_u32", tvec F32 2, [tvec U32 2; TScal I32], 2069%Z);
    ("vcvt_n_f64_s64", tvec F64 1, [tvec I64 1; TScal I32], 2070%Z);
    ("vcvt_n_f64_u64", tvec F64 1, [tvec U64 1; TScal I32], 2071%Z);
    ("vcvtq_n_s32_f32", tvec I32 4, [tvec F32 4; TScal I32], 2080%Z);
    ("vcvtq_n_u32_f32", tvec U32 4, [tvec F32 4; TScal I32], 2081%Z);
    ("vcvtq_n_s64_f64", tvec I64 2, [tvec F64 2; TScal I32], 2082%Z);
    ("vcvtq_n_u64_f64", tvec U64 2, [tvec F64 2; TScal I32], 2083%Z);
    ("vcvtq_n_f32_s32", tvec F32 4, [tvec I32 4; TScal I32], 2084%Z);
    ("vcvtq_n_f32_u32", tvec F32 4, [tvec U32 4; TScal I32], 2085%Z);
    ("vcvtq_n_f64_s64", tvec F64 2, [tvec I64 2; TScal I32], 2086%Z);
    ("vcvtq_n_f64_u64", tvec F64 2, [tvec U64 2; TScal I32], 2087%Z);
    ("vreinterpret_u8_s8", tvec U8 8, [tvec I8 8], 2098%Z);
    ("vreinterpret_u8_s16", tvec U8 8, [tvec I16 4], 2099%Z);
    ("vreinterpret_u8_s32", tvec U8 8, [tvec I32 2], 2100%Z);
    ("vreinterpret_u8_f32", tvec U8 8, [tvec F32 2], 2101%Z);
    ("vreinterpret_u8_u16", tvec U8 8, [tvec U16 4], 2102%Z);
    ("vreinterpret_u8_u32", tvec U8 8, [tvec U32 2], 2103%Z);
    ("vreinterpret_u8_u64", tvec U8 8, [tvec U64 1], 2104%Z);
    ("vreinterpret_u8_s64", tvec U8 8, [tvec I64 1], 2105%Z);
    ("vreinterpret_u8_f64", tvec U8 8, [tvec F64 1], 2109%Z);
    ("vreinterpret_u16_s8", tvec U16 4, [tvec I8 8], 2112%Z);
    ("vreinterpret_u16_s16", tvec U16 4, [tvec I16 4], 2113%Z);
    ("vreinterpret_u16_s32", tvec U16 4, [tvec I32 2], 2114%Z);
    ("vreinterpret_u16_f32", tvec U16 4, [tvec F32 2], 2115%Z);
    ("vreinterpret_u16_u8", tvec U16 4, [tvec U8 8], 2116%Z);
    ("vreinterpret_u16_u32", tvec U16 4, [tvec U32 2], 2117%Z);
    ("vreinterpret_u16_u64", tvec U16 4, [tvec U64 1], 2118%Z);
    ("vreinterpret_u16_s64", tvec U16 4, [tvec I64 1], 2119%Z);
    ("vreinterpret_u16_f64", tvec U16 4, [tvec F64 1], 2123%Z);
    ("vreinterpret_u32_s8", tvec U32 2, [tvec I8 8], 2126%Z);
    ("vreinterpret_u32_s16", tvec U32 2, [tvec I16 4], 2127%Z);
    ("vreinterpret_u32_s32", tvec U32 2, [tvec I32 2], 2128%Z);
    ("vreinterpret_u32_f32", tvec U32 2, [tvec F32 2], 2129%Z);
    ("vreinterpret_u32_u8", tvec U32 2, [tvec U8 8], 2130%Z);
    ("vreinterpret_u32_u16", tvec U32 2, [tvec U16 4], 2131%Z);
    ("vreinterpret_u32_u64", tvec U32 2, [tvec U64 1], 2132%Z);
    ("vreinterpret_u32_s64", tvec U32 2, [tvec I64 1], 2133%Z);
    ("vreinterpret_u32_f64", tvec U32 2, [tvec F64 1], 2137%Z);
    ("vreinterpret_u64_s8", tvec U64 1, [tvec I8 8], 2140%Z);
    ("vreinterpret_u64_s16", tvec U64 1, [tvec I16 4], 2141%Z);
    ("vreinterpret_u64_s32", tvec U64 1, [tvec I32 2], 2142%Z);
    ("vreinterpret_u64_f32", tvec U64 1, [tvec F32 2], 2143%Z);
    ("vreinterpret_u64_u8", tvec U64 1, [tvec U8 8], 2144%Z);
    ("vreinterpret_u64_u16", tvec U64 1, [tvec U16 4], 2145%Z);
    ("vreinterpret_u64_u32", tvec U64 1, [tvec U32 2], 2146%Z);
    ("vreinterpret_u64_s64", tvec U64 1, [tvec I64 1], 2147%Z);
    ("vreinterpret_u64_f64", tvec U64 1, [tvec F64 1], 2151%Z);
    ("vreinterpret_s8_s16", tvec I8 8, [tvec I16 4], 2154%Z);
    ("vreinterpret_s8_s32", tvec I8 8, [tvec I32 2], 2155%Z);
    ("vreinterpret_s8_f32", tvec I8 8, [tvec F32 2], 2156%Z);
    ("vreinterpret_s8_u8", tvec I8 8, [tvec U8 8], 2157%Z);
    ("vreinterpret_s8_u16", tvec I8 8, [tvec U16 4], 2158%Z);
    ("vreinterpret_s8_u32", tvec I8 8, [tvec U32 2], 2159%Z);
    ("vreinterpret_s8_u64", tvec I8 8, [tvec U64 1], 2160%Z);
    ("vreinterpret_s8_s64", tvec I8 8, [tvec I64 1], 2161%Z);
    ("vreinterpret_s8_f64", tvec I8 8, [tvec F64 1], 2165%Z);
    ("vreinterpret_s16_s8", tvec I16 4, [tvec I8 8], 2168%Z);
    ("vreinterpret_s16_s32", tvec I16 4, [tvec I32 2], 2169%Z);
    ("vreinterpret_s16_f32", tvec I16 4, [tvec F32 2], 2170%Z);
    ("vreinterpret_s16_u8", tvec I16 4, [tvec U8 8], 2171%Z);
    ("vreinterpret_s16_u16", tvec I16 4, [tvec U16 4], 2172%Z);
    ("vreinterpret_s16_u32", tvec I16 4, [tvec U32 2], 2173%Z);
    ("vreinterpret_s16_u64", tvec I16 4, [tvec U64 1], 2174%Z);
    ("vreinterpret_s16_s64", tvec I16 4, [tvec I64 1], 2175%Z);
    ("vreinterpret_s16_f64", tvec I16 4, [tvec F64 1], 2179%Z);
    ("vreinterpret_s32_s8", tvec I32 2, [tvec I8 8], 2182%Z);
    ("vreinterpret_s32_s16", tvec I32 2, [tvec I16 4], 2183%Z);
    ("vreinterpret_s32_f32", tvec I32 2, [tvec F32 2], 2184%Z);
    ("vreinterpret_s32_u8", tvec I32 2, [tvec U8 8], 2185%Z);
    ("vreinterpret_s32_u16", tvec I32 2, [tvec U16 4], 2186%Z);
    ("vreinterpret_s32_u32", tvec I32 2, [tvec U32 2], 2187%Z);
    ("vreinterpret_s32_u64", tvec I32 2, [tvec U64 1], 2188%Z);
    ("vreinterpret_s32_s64", tvec I32 2, [tvec I64 1], 2189%Z);
    ("vreinterpret_s32_f64", tvec I32 2, [tvec F64 1], 2193%Z);
    ("vreinterpret_s64_s8", tvec I64 1, [tvec I8 8], 2196%Z);
    ("vreinterpret_s64_s16", tvec I64 1, [tvec I16 4], 2197%Z);
    ("vreinterpret_s64_s32", tvec I64 1, [tvec I32 2], 2198%Z);
    ("vreinterpret_s64_f32", tvec I64 1, [tvec F32 2], 2199%Z);
    ("vreinterpret_s64_u8", tvec I64 1, [tvec U8 8], 2200%Z);
    ("vreinterpret_s64_u16", tvec I64 1, [tvec U16 4], 2201%Z);
    ("vreinterpret_s64_u32", tvec I64 1, [tvec U32 2], 2202%Z);
    ("vreinterpret_s64_u64", tvec I64 1, [tvec U64 1], 2203%Z);
    ("vreinterpret_s64_f64", tvec I64 1, [tvec F64 1], 2207%Z);
    ("vreinterpret_f32_s8", tvec F32 2, [tvec I8 8], 2210%Z);
    ("vreinterpret_f32_s16", tvec F32 2, [tvec I16 4], 2211%Z);
    ("vreinterpret_f32_s32", tvec F32 2, [tvec I32 2], 2212%Z);
    ("vreinterpret_f32_u8", tvec F32 2, [tvec U8 8], 2213%Z);
    ("vreinterpret_f32_u16", tvec F32 2, [tvec U16 4], 2214%Z);
    ("vreinterpret_f32_u32", tvec F32 2, [tvec U32 2], 2215%Z);
    ("vreinterpret_f32_u64", tvec F32 2, [tvec U64 1], 2216%Z);
    ("vreinterpret_f32_s64", tvec F32 2, [tvec I64 1], 2217%Z);
    ("vreinterpret_f32_f64", tvec F32 2, [tvec F64 1], 2221%Z);
    ("vreinterpret_f64_s8", tvec F64 1, [tvec I8 8], 2224%Z);
    ("vreinterpret_f64_s16", tvec F64 1, [tvec I16 4], 2225%Z);
    ("vreinterpret_f64_s32", tvec F64 1, [tvec I32 2], 2226%Z);
    ("vreinterpret_f64_f32", tvec F64 1, [tvec F32 2], 2227%Z);
    ("vreinterpret_f64_u8", tvec F64 1, [tvec U8 8], 2228%Z);
    ("vreinterpret_f64_u16", tvec F64 1, [tvec U16 4], 2229%Z);
    ("vreinterpret_f64_u32", tvec F64 1, [tvec U32 2], 2230%Z);
    ("vreinterpret_f64_u64", tvec F64 1, [tvec U64 1], 2231%Z);
    ("vreinterpret_f64_s64", tvec F64 1, [tvec I64 1], 2232%Z);
    ("vreinterpretq_u8_s8", tvec U8 16, [tvec I8 16], 2240%Z);
    ("vreinterpretq_u8_s16", tvec U8 16, [tvec I16 8], 2241%Z);
    ("vreinterpretq_u8_s32", tvec U8 16, [tvec I32 4], 2242%Z);
    ("vreinterpretq_u8_f32", tvec U8 16, [tvec F32 4], 2243%Z);
    ("vreinterpretq_u8_u16", tvec U8 16, [tvec U16 8], 2244%Z);
    ("vreinterpretq_u8_u32", tvec U8 16, [tvec U32 4], 2245%Z);
    ("vreinterpretq_u8_u64", tvec U8 16, [tvec U64 2], 2246%Z);
    ("vreinterpretq_u8_s64", tvec U8 16, [tvec I64 2], 2247%Z);
    ("vreinterpretq_u8_f64", tvec U8 16, [tvec F64 2], 2251%Z);
    ("vreinterpretq_u16_s8", tvec U16 8, [tvec I8 16], 2254%Z);
    ("vreinterpretq_u16_s16", tvec U16 8, [tvec I16 8], 2255%Z);
    ("vreinterpretq_u16_s32", tvec U16 8, [tvec I32 4], 2256%Z);
    ("vreinterpretq_u16_f32", tvec U16 8, [tvec F32 4], 2257%Z);
    ("vreinterpretq_u16_u8", tvec U16 8, [tvec U8 16], 2258%Z);
    ("vreinterpretq_u16_u32", tvec U16 8, [tvec U32 4], 2259%Z);
    ("vreinterpretq_u16_u64", tvec U16 8, [tvec U64 2], 2260%Z);
    ("vreinterpretq_u16_s64", tvec U16 8, [tvec I64 2], 2261%Z);
    ("vreinterpretq_u16_f64", tvec U16 8, [tvec F64 2], 2265%Z);
    ("vreinterpretq_u32_s8", tvec U32 4, [tvec I8 16], 2268%Z);
    ("vreinterpretq_u32_s16", tvec U32 4, [tvec I16 8], 2269%Z);
    ("vreinterpretq_u32_s32", tvec U32 4, [tvec I32 4], 2270%Z);
    ("vreinterpretq_u32_f32", tvec U32 4, [tvec F32 4], 2271%Z);
    ("vreinterpretq_u32_u8", tvec U32 4, [tvec U8 16], 2272%Z);
    ("vreinterpretq_u32_u16", tvec U32 4, [tvec U16 8], 2273%Z);
    ("vreinterpretq_u32_u64", tvec U32 4, [tvec U64 2], 2274%Z);
    ("vreinterpretq_u32_s64", tvec U32 4, [tvec I64 2], 2275%Z);
    ("vreinterpretq_u32_f64", tvec U32 4, [tvec F64 2], 2279%Z);
    ("vreinterpretq_u64_s8", tvec U64 2, [tvec I8 16], 2282%Z);
    ("vreinterpretq_u64_s16", tvec U64 2, [tvec I16 8], 2283%Z);
    ("vreinterpretq_u64_s32", tvec U64 2, [tvec I32 4], 2284%Z);
    ("vreinterpretq_u64_f32", tvec U64 2, [tvec F32 4], 2285%Z);
    ("vreinterpretq_u64_u8", tvec U64 2, [tvec U8 16], 2286%Z);
    ("vreinterpretq_u64_u16", tvec U64 2, [tvec U16 8], 2287%Z);
    ("vreinterpretq_u64_u32", tvec U64 2, [tvec U32 4], 2288%Z);
    ("vreinterpretq_u64_s64", tvec U64 2, [tvec I64 2], 2289%Z);
    ("vreinterpretq_u64_f64", tvec U64 2, [tvec F64 2], 2293%Z);
    ("vreinterpretq_s8_s16", tvec I8 16, [tvec I16 8], 2296%Z);
    ("vreinterpretq_s8_s32", tvec I8 16, [tvec I32 4], 2297%Z);
    ("vreinterpretq_s8_f32", tvec I8 16, [tvec F32 4], 2298%Z);
    ("vreinterpretq_s8_u8", tvec I8 16, [tvec U8 16], 2299%Z);
    ("vreinterpretq_s8_u16", tvec I8 16, [tvec U16 8], 2300%Z);
    ("vreinterpretq_s8_u32", tvec I8 16, [tvec U32 4], 2301%Z);
    ("vreinterpretq_s8_u64", tvec I8 16, [tvec U64 2], 2302%Z);
    ("vreinterpretq_s8_s64", tvec I8 16, [tvec I64 2], 2303%Z);
    ("vreinterpretq_s8_f64", tvec I8 16, [tvec F64 2], 2307%Z);
    ("vreinterpretq_s16_s8", tvec I16 8, [tvec I8 16], 2310%Z);
    ("vreinterpretq_s16_s32", tvec I16 8, [tvec I32 4], 2311%Z);
    ("vreinterpretq_s16_f32", tvec I16 8, [tvec F32 4], 2312%Z);
    ("vreinterpretq_s16_u8", tvec I16 8, [tvec U8 16], 2313%Z);
    ("vreinterpretq_s16_u16", tvec I16 8, [tvec U16 8], 2314%Z);
    ("vreinterpretq_s16_u32", tvec I16 8, [tvec U32 4], 2315%Z);
    ("vreinterpretq_s16_u64", tvec I16 8, [tvec U64 2], 2316%Z);
    ("vreinterpretq_s16_s64", tvec I16 8, [tvec I64 2], 2317%Z);
    ("vreinterpretq_s16_f64", tvec I16 8, [tvec F64 2], 2321%Z);
    ("vreinterpretq_s32_s8", tvec I32 4, [tvec I8 16], 2324%Z);
    ("vreinterpretq_s32_s16", tvec I32 4, [tvec I16 8], 2325%Z);
    ("vreinterpretq_s32_f32", tvec I32 4, [tvec F32 4], 2326%Z);
    ("vreinterpretq_s32_u8", tvec I32 4, [tvec U8 16], 2327%Z);
    ("vreinterpretq_s32_u16", tvec I32 4, [tvec U16 8], 2328%Z);
    ("vreinterpretq_s32_u32", tvec I32 4, [tvec U32 4], 2329%Z);
    ("vreinterpretq_s32_u64", tvec I32 4, [tvec U64 2], 2330%Z);
    ("vreinterpretq_s32_s64", tvec I32 4, [tvec I64 2], 2331%Z);
    ("vreinterpretq_s32_f64", tvec I32 4, [tvec F64 2], 2335%Z);
    ("vreinterpretq_s64_s8", tvec I64 2, [tvec I8 16], 2338%Z);
    ("vreinterpretq_s64_s16", tvec I64 2, [tvec I16 8], 2339%Z);
    ("vreinterpretq_s64_s32", tvec I64 2, [tvec I32 4], 2340%Z);
    ("vreinterpretq_s64_f32", tvec I64 2, [tvec F32 4], 2341%Z);
    ("vreinterpretq_s64_u8", tvec I64 2, [tvec U8 16], 2342%Z);
    ("vreinterpretq_s64_u16", tvec I64 2, [tvec U16 8], 2343%Z);
    ("vreinterpretq_s64_u32", tvec I64 2, [tvec U32 4], 2344%Z);
    ("vreinterpretq_s64_u64", tvec I64 2, [tvec U64 2], 2345%Z);
    ("vreinterpretq_s64_f64", tvec I64 2, [tvec F64 2], 2349%Z);
    ("vreinterpretq_f32_s8", tvec F32 4, [tvec I8 16], 2352%Z);
    ("vreinterpretq_f32_s16", tvec F32 4, [tvec I16 8], 2353%Z);
    ("vreinterpretq_f32_s32", tvec F32 4, [tvec I32 4], 2354%Z);
    ("vreinterpretq_f32_u8", tvec F32 4, [tvec U8 16], 2355%Z);
    ("vreinterpretq_f32_u16", tvec F32 4, [tvec U16 8], 2356%Z);
    ("vreinterpretq_f32_u32", tvec F32 4, [tvec U32 4], 2357%Z);
    ("vreinterpretq_f32_u64", tvec F32 4, [tvec U64 2], 2358%Z);
    ("vreinterpretq_f32_s64", tvec F32 4, [tvec I64 2], 2359%Z);
    ("vreinterpretq_f32_f64", tvec F32 4, [tvec F64 2], 2363%Z);
    ("vreinterpretq_f64_s8", tvec F64 2, [tvec I8 16], 2366%Z);
    ("vreinterpretq_f64_s16", tvec F64 2, [tvec I16 8], 2367%Z);
    ("vreinterpretq_f64_s32", tvec F64 2, [tvec I32 4], 2368%Z);
    ("vreinterpretq_f64_f32", tvec F64 2, [tvec F32 4], 2369%Z);
    ("vreinterpretq_f64_u8", tvec F64 2, [tvec U8 16], 2370%Z);
    ("vreinterpretq_f64_u16", tvec F64 2, [tvec U16 8], 2371%Z);
    ("vreinterpretq_f64_u32", tvec F64 2, [tvec U32 4], 2372%Z);
    ("vreinterpretq_f64_u64", tvec F64 2, [tvec U64 2], 2373%Z);
    ("vreinterpretq_f64_s64", tvec F64 2, [tvec I64 2], 2374%Z);
    ("vmul_s8", tvec I8 8, [tvec I8 8; tvec I8 8], 2384%Z);
    ("vmul_s16", tvec I16 4, [tvec I16 4; tvec I16 4], 2385%Z);
    ("vmul_s32", tvec I32 2, [tvec I32 2; tvec I32 2], 2386%Z);
    ("vmul_u8", tvec U8 8, [tvec U8 8; tvec U8 8], 2387%Z);
    ("vmul_u16", tvec U16 4, [tvec U16 4; tvec U16 4], 2388%Z);
    ("vmul_u32", tvec U32 2, [tvec U32 2; tvec U32 2], 2389%Z);
    ("vmul_f32", tvec F32 2, [tvec F32 2; tvec F32 2], 2390%Z);
    ("vmul_f64", tvec F64 1, [tvec F64 1; tvec F64 1], 2391%Z);
    ("vmulq_s8", tvec I8 16, [tvec I8 16; tvec I8 16], 2394%Z);
    ("vmulq_s16", tvec I16 8, [tvec I16 8; tvec I16 8], 2395%Z);
    ("vmulq_s32", tvec I32 4, [tvec I32 4; tvec I32 4], 2396%Z);
    ("vmulq_u8", tvec U8 16, [tvec U8 16; tvec U8 16], 2397%Z);
    ("vmulq_u16", tvec U16 8, [tvec U16 8; tvec U16 8], 2398%Z);
    ("vmulq_u32", tvec U32 4, [tvec U32 4; tvec U32 4], 2399%Z);
    ("vmulq_f32", tvec F32 4, [tvec F32 4; tvec F32 4], 2400%Z);
    ("vmulq_f64", tvec F64 2, [tvec F64 2; tvec F64 2], 2401%Z);
    ("vmul_n_s16", tvec I16 4, [tvec I16 4; TScal I16], 2404%Z);
    ("vmul_n_s32", tvec I32 2, [tvec I32 2; TScal I32], 2405%Z);
    ("vmul_n_u16", tvec U16 4, [tvec U16 4; TScal U16], 2406%Z);
    ("vmul_n_u32", tvec U32 2, [tvec U32 2; TScal U32], 2407%Z);
    ("vmul_n_f32", tvec F32 2, [tvec F32 2; TScal F32], 2408%Z);
    ("vmul_n_f64", tvec F64 1, [tvec F64 1; TScal F64], 2409%Z);
    ("vmulq_n_s16", tvec I16 8, [tvec I16 8; TScal I16], 2412%Z);
    ("vmulq_n_s32", tvec I32 4, [tvec I32 4; TScal I32], 2413%Z);
    ("vmulq_n_u16", tvec U16 8, [tvec U16 8; TScal U16], 2414%Z);
    ("vmulq_n_u32", tvec U32 4, [tvec U32 4; TScal U32], 2415%Z);
    ("vmulq_n_f32", tvec F32 4, [tvec F32 4; TScal F32], 2416%Z);
    ("vmulq_n_f64", tvec F64 2, [tvec F64 2; TScal F64], 2417%Z);
    ("vmul_lane_s16", tvec I16 4, [tvec I16 4; tvec I16 4; TScal I32], 2420%Z);
    ("vmul_lane_s32", tvec I32 2, [tvec I32 2; tvec I32 2; TScal I32], 2421%Z);
    ("vmul_lane_u16", tvec U16 4, [tvec U16 4; tvec U16 4; TScal I32], 2422%Z);
    ("vmul_lane_u32", tvec U32 2, [tvec U32 2; tvec U32 2; TScal I32], 2423%Z);
    ("vmul_lane_f32", tvec F32 2, [tvec F32 2; tvec F32 2; TScal I32], 2424%Z);
    ("vmul_lane_f64", tvec F64 1, [tvec F64 1; tvec F64 1; TScal I32], 2425%Z);
    ("vmulq_lane_s16", tvec I16 8, [tvec I16 8; tvec I16 4; TScal I32], 2428%Z);
    ("vmulq_lane_s32", tvec I32 4, [tvec I32 4; tvec I32 2; TScal I32], 2429%Z);
    ("vmulq_lane_u16", tvec U16 8, [tvec U16 8; tvec U16 4; TScal I32], 2430%Z);
    ("vmulq_lane_u32", tvec U32 4, [tvec U32 4; tvec U32 2; TScal I32], 2431%Z);
    ("vmulq_lane_f32", tvec F32 4, [tvec F32 4; tvec F32 2; TScal I32], 2432%Z);
    ("vmulq_lane_f64", tvec F64 2, [tvec F64 2; tvec F64 1; TScal I32], 2433%Z);
    ("vmull_s8", tvec I16 8, [tvec I8 8; tvec I8 8], 2436%Z);
    ("vmull_s16", tvec I32 4, [tvec I16 4; tvec I16 4], 2437%Z);
    ("vmull_s32", tvec I64 2, [tvec I32 2; tvec I32 2], 2438%Z);
    ("vmull_u8", tvec U16 8, [tvec U8 8; tvec U8 8], 2439%Z);
    ("vmull_u16", tvec U32 4, [tvec U16 4; tvec U16 4], 2440%Z);
    ("vmull_u32", tvec U64 2, [tvec U32 2; tvec U32 2], 2441%Z);
    ("vmull_n_s16", tvec I32 4, [tvec I16 4; TScal I16], 2444%Z);
    ("vmull_n_s32", tvec I64 2, [tvec I32 2; TScal I32], 2445%Z);
    ("vmull_n_u16", tvec U32 4, [tvec U16 4; TScal U16], 2446%Z);
    ("vmull_n_u32", tvec U64 2, [tvec U32 2; TScal U32], 2447%Z);
    ("vmull_lane_s16", tvec I32 4, [tvec I16 4; tvec I16 4; TScal I32], 2450%Z);
    ("vmull_lane_s32", tvec I64 2, [tvec I32 2; tvec I32 2; TScal I32], 2451%Z);
    ("vmull_lane_u16", tvec U32 4, [tvec U16 4; tvec U16 4; TScal I32], 2452%Z);
    ("vmull_lane_u32", tvec U64 2, [tvec U32 2; tvec U32 2; TScal I32], 2453%Z);
    ("vqdmull_s16", tvec I32 4, [tvec I16 4; tvec I16 4], 2456%Z);
    ("vqdmull_s32", tvec I64 2, [tvec I32 2; tvec I32 2], 2457%Z);
    ("vqdmull_n_s16", tvec I32 4, [tvec I16 4; TScal I16], 2460%Z);
    ("vqdmull_n_s32", tvec I64 2, [tvec I32 2; TScal I32], 2461%Z);
    ("vqdmull_lane_s16", tvec I32 4, [tvec I16 4; tvec I16 4; TScal I32], 2464%Z);
    ("vqdmull_lane_s32", tvec I64 2, [tvec I32 2; tvec I32 2; TScal I32], 2465%Z);
    ("vqdmulh_s16", tvec I16 4, [tvec I16 4; tvec I16 4], 2468%Z);
    ("vqdmulh_s32", tvec I32 2, [tvec I32 2; tvec I32 2], 2469%Z);
    ("vqdmulhq_s16", tvec I16 8, [tvec I16 8; tvec I16 8], 2472%Z);
    ("vqdmulhq_s32", tvec I32 4, [tvec I32 4; tvec I32 4], 2473%Z);
    ("vqdmulh_n_s16", tvec I16 4, [tvec I16 4; TScal I16], 2476%Z);
    ("vqdmulh_n_s32", tvec I32 2, [tvec I32 2; TScal I32], 2477%Z);
    ("vqdmulhq_n_s16", tvec I16 8, [tvec I16 8; TScal I16], 2480%Z);
    ("vqdmulhq_n_s32", tvec I32 4, [tvec I32 4; TScal I32], 2481%Z);
    ("vqdmulh_lane_s16", tvec I16 4, [tvec I16 4; tvec I16 4; TScal I32], 2484%Z);
    ("vqdmulh_lane_s32", tvec I32 2, [tvec I32 2; tvec I32 2; TScal I32], 2485%Z);
    ("vqdmulhq_lane_s16", tvec I16 8, [tvec I16 8; tvec I16 4; TScal I32], 2488%Z);
    ("vqdmulhq_lane_s32", tvec I32 4, [tvec I32 4; tvec I32 2; TScal I32], 2489%Z);
    ("vqrdmulh_s16", tvec I16 4, [tvec I16 4; tvec I16 4], 2492%Z);
    ("vqrdmulh_s32", tvec I32 2, [tvec I32 2; tvec I32 2], 2493%Z);
    ("vqrdmulhq_s16", tvec I16 8, [tvec I16 8; tvec I16 8], 2496%Z);
    ("vqrdmulhq_s32", tvec I32 4, [tvec I32 4; tvec I32 4], 2497%Z);
    ("vqrdmulh_n_s16", tvec I16 4, [tvec I16 4; TScal I16], 2500%Z);
    ("vqrdmulh_n_s32", tvec I32 2, [tvec I32 2; TScal I32], 2501%Z);
    ("vqrdmulhq_n_s16", tvec I16 8, [tvec I16 8; TScal I16], 2504%Z);
    ("vqrdmulhq_n_s32", tvec I32 4, [tvec I32 4; TScal I32], 2505%Z);
    ("vqrdmulh_lane_s16", tvec I16 4, [tvec I16 4; tvec I16 4; TScal I32], 2508%Z);
    ("vqrdmulh_lane_s32", tvec I32 2, [tvec I32 2; tvec I32 2; TScal I32], 2509%Z);
    ("vqrdmulhq_lane_s16", tvec I16 8, [tvec I16 8; tvec I16 4; TScal I32], 2512%Z);
    ("vqrdmulhq_lane_s32", tvec I32 4, [tvec I32 4; tvec I32 2; TScal I32], 2513%Z);
    ("vcvtn_s32_f32", tvec I32 2, [tvec F32 2], 2516%Z);
    ("vcvtn_u32_f32", tvec U32 2, [tvec F32 2], 2517%Z);
    ("vcvtn_s64_f64", tvec I64 1, [tvec F64 1], 2518%Z);
    ("vcvtn_u64_f64", tvec U64 1, [tvec F64 1], 2519%Z);
    ("vcvtnq_s32_f32", tvec I32 4, [tvec F32 4], 2526%Z);
    ("vcvtnq_u32_f32", tvec U32 4, [tvec F32 4], 2527%Z);
    ("vcvtnq_s64_f64", tvec I64 2, [tvec F64 2], 2528%Z);
    ("vcvtnq_u64_f64", tvec U64 2, [tvec F64 2], 2529%Z);
    ("vmla_s8", tvec I8 8, [tvec I8 8; tvec I8 8; tvec I8 8], 2540%Z);
    ("vmla_s16", tvec I16 4, [tvec I16 4; tvec I16 4; tvec I16 4], 2541%Z);
    ("vmla_s32", tvec I32 2, [tvec I32 2; tvec I32 2; tvec I32 2], 2542%Z);
    ("vmla_u8", tvec U8 8, [tvec U8 8; tvec U8 8; tvec U8 8], 2543%Z);
    ("vmla_u16", tvec U16 4, [tvec U16 4; tvec U16 4; tvec U16 4], 2544%Z);
    ("vmla_u32", tvec U32 2, [tvec U32 2; tvec U32 2; tvec U32 2], 2545%Z);
    ("vmla_f32", tvec F32 2, [tvec F32 2; tvec F32 2; tvec F32 2], 2546%Z);
    ("vmla_f64", tvec F64 1, [tvec F64 1; tvec F64 1; tvec F64 1], 2547%Z);
    ("vmlaq_s8", tvec I8 16, [tvec I8 16; tvec I8 16; tvec I8 16], 2550%Z);
    ("vmlaq_s16", tvec I16 8, [tvec I16 8; tvec I16 8; tvec I16 8], 2551%Z);
    ("vmlaq_s32", tvec I32 4, [tvec I32 4; tvec I32 4; tvec I32 4], 2552%Z);
    ("vmlaq_u8", tvec U8 16, [tvec U8 16; tvec U8 16; tvec U8 16], 2553%Z);
    ("vmlaq_u16", tvec U16 8, [tvec U16 8; tvec U16 8; tvec U16 8], 2554%Z);
    ("vmlaq_u32", tvec U32 4, [tvec U32 4; tvec U32 4; tvec U32 4], 2555%Z);
    ("vmlaq_f32", tvec F32 4, [tvec F32 4; tvec F32 4; tvec F32 4], 2556%Z);
    ("vmlaq_f64", tvec F64 2, [tvec F64 2; tvec F64 2; tvec F64 2], 2557%Z);
    ("vmla_n_s16", tvec I16 4, [tvec I16 4; tvec I16 4; TScal I16], 2560%Z);
    ("vmla_n_s32", tvec I32 2, [tvec I32 2; tvec I32 2; TScal I32], 2561%Z);
    ("vmla_n_u16", tvec U16 4, [tvec U16 4; tvec U16 4; TScal U16], 2562%Z);
    ("vmla_n_u32", tvec U32 2, [tvec U32 2; tvec U32 2; TScal U32], 2563%Z);
    ("vmla_n_f32", tvec F32 2, [tvec F32 2; tvec F32 2; TScal F32], 2564%Z);
    ("vmlaq_n_s16", tvec I16 8, [tvec I16 8; tvec I16 8; TScal I16], 2567%Z);
    ("vmlaq_n_s32", tvec I32 4, [tvec I32 4; tvec I32 4; TScal I32], 2568%Z);
    ("vmlaq_n_u16", tvec U16 8, [tvec U16 8; tvec U16 8; TScal U16], 2569%Z);
    ("vmlaq_n_u32", tvec U32 4, [tvec U32 4; tvec U32 4; TScal U32], 2570%Z);
    ("vmlaq_n_f32", tvec F32 4, [tvec F32 4; tvec F32 4; TScal F32], 2571%Z);
    ("vmla_lane_s16", tvec I16 4, [tvec I16 4; tvec I16 4; tvec I16 4; TScal I32], 2574%Z);
    ("vmla_lane_s32", tvec I32 2, [tvec I32 2; tvec I32 2; tvec I32 2; TScal I32], 2575%Z);
    ("vmla_lane_u16", tvec U16 4, [tvec U16 4; tvec U16 4; tvec U16 4; TScal I32], 2576%Z);
    ("vmla_lane_u32", tvec U32 2, [tvec U32 2; tvec U32 2; tvec U32 2; TScal I32], 2577%Z);
    ("vmla_lane_f32", tvec F32 2, [tvec F32 2; tvec F32 2; tvec F32 2; TScal I32], 2578%Z);
    ("vmlaq_lane_s16", tvec I16 8, [tvec I16 8; tvec I16 8; tvec I16 4; TScal I32], 2581%Z);
    ("vmlaq_lane_s32", tvec I32 4, [tvec I32 4; tvec I32 4; tvec I32 2; TScal I32], 2582%Z);
    ("vmlaq_lane_u16", tvec U16 8, [tvec U16 8; tvec U16 8; tvec U16 4; TScal I32], 2583%Z);
    ("vmlaq_lane_u32", tvec U32 4, [tvec U32 4; tvec U32 4; tvec U32 2; TScal I32], 2584%Z);
    ("vmlaq_lane_f32", tvec F32 4, [tvec F32 4; tvec F32 4; tvec F32 2; TScal I32], 2585%Z);
    ("vmlal_s8", tvec I16 8, [tvec I16 8; tvec I8 8; tvec I8 8], 2588%Z);
    ("vmlal_s16", tvec I32 4, [tvec I32 4; tvec I16 4; tvec I16 4], 2589%Z);
    ("vmlal_s32", tvec I64 2, [tvec I64 2; tvec I32 2; tvec I32 2], 2590%Z);
    ("vmlal_u8", tvec U16 8, [tvec U16 8; tvec U8 8; tvec U8 8], 2591%Z);
    ("vmlal_u16", tvec U32 4, [tvec U32 4; tvec U16 4; tvec U16 4], 2592%Z);
    ("vmlal_u32", tvec U64 2, [tvec U64 2; tvec U32 2; tvec U32 2], 2593%Z);
    ("vmlal_n_s16", tvec I32 4, [tvec I32 4; tvec I16 4; TScal I16], 2596%Z);
    ("vmlal_n_s32", tvec I64 2, [tvec I64 2; tvec I32 2; TScal I32], 2597%Z);
    ("vmlal_n_u16", tvec U32 4, [tvec U32 4; tvec U16 4; TScal U16], 2598%Z);
    ("vmlal_n_u32", tvec U64 2, [tvec U64 2; tvec U32 2; TScal U32], 2599%Z);
    ("vmlal_lane_s16", tvec I32 4, [tvec I32 4; tvec I16 4; tvec I16 4; TScal I32], 2602%Z);
    ("vmlal_lane_s32", tvec I64 2, [tvec I64 2; tvec I32 2; tvec I32 2; TScal I32], 2603%Z);
    ("vmlal_lane_u16", tvec U32 4, [tvec U32 4; tvec U16 4; tvec U16 4; TScal I32], 2604%Z);
    ("vmlal_lane_u32", tvec U64 2, [tvec U64 2; tvec U32 2; tvec U32 2; TScal I32], 2605%Z);
    ("vfma_f32", tvec F32 2, [tvec F32 2; tvec F32 2; tvec F32 2], 2608%Z);
    ("vqdmlal_s16", tvec I32 4, [tvec I32 4; tvec I16 4; tvec I16 4], 2611%Z);
    ("vqdmlal_s32", tvec I64 2, [tvec I64 2; tvec I32 2; tvec I32 2], 2612%Z);
    ("vqdmlal_n_s16", tvec I32 4, [tvec I32 4; tvec I16 4; TScal I16], 2615%Z);
    ("vqdmlal_n_s32", tvec I64 2, [tvec I64 2; tvec I32 2; TScal I32], 2616%Z);
    ("vqdmlal_lane_s16", tvec I32 4, [tvec I32 4; tvec I16 4; tvec I16 4; TScal I32], 2619%Z);
    ("vqdmlal_lane_s32", tvec I64 2, [tvec I64 2; tvec I32 2; tvec I32 2; TScal I32], 2620%Z);
    ("vmls_s8", tvec I8 8, [tvec I8 8; tvec I8 8; tvec I8 8], 2627%Z);
    ("vmls_s16", tvec I16 4, [tvec I16 4; tvec I16 4; tvec I16 4], 2628%Z);
    ("vmls_s32", tvec I32 2, [tvec I32 2; tvec I32 2; tvec I32 2], 2629%Z);
    ("vmls_u8", tvec U8 8, [tvec U8 8; tvec U8 8; tvec U8 8], 2630%Z);
    ("vmls_u16", tvec U16 4, [tvec U16 4; tvec U16 4; tvec U16 4], 2631%Z);
    ("vmls_u32", tvec U32 2, [tvec U32 2; tvec U32 2; tvec U32 2], 2632%Z);
    ("vmls_f32", tvec F32 2, [tvec F32 2; tvec F32 2; tvec F32 2], 2633%Z);
    ("vmls_f64", tvec F64 1, [tvec F64 1; tvec F64 1; tvec F64 1], 2634%Z);
    ("vmlsq_s8", tvec I8 16, [tvec I8 16; tvec I8 16; tvec I8 16], 2637%Z);
    ("vmlsq_s16", tvec I16 8, [tvec I16 8; tvec I16 8; tvec I16 8], 2638%Z);
    ("vmlsq_s32", tvec I32 4, [tvec I32 4; tvec I32 4; tvec I32 4], 2639%Z);
    ("vmlsq_u8", tvec U8 16, [tvec U8 16; tvec U8 16; tvec U8 16], 2640%Z);
    ("vmlsq_u16", tvec U16 8, [tvec U16 8; tvec U16 8; tvec U16 8], 2641%Z);
    ("vmlsq_u32", tvec U32 4, [tvec U32 4; tvec U32 4; tvec U32 4], 2642%Z);
    ("vmlsq_f32", tvec F32 4, [tvec F32 4; tvec F32 4; tvec F32 4], 2643%Z);
    ("vmlsq_f64", tvec F64 2, [tvec F64 2; tvec F64 2; tvec F64 2], 2644%Z);
    ("vmls_n_s16", tvec I16 4, [tvec I16 4; tvec I16 4; TScal I16], 2647%Z);
    ("vmls_n_s32", tvec I32 2, [tvec I32 2; tvec I32 2; TScal I32], 2648%Z);
    ("vmls_n_u16", tvec U16 4, [tvec U16 4; tvec U16 4; TScal U16], 2649%Z);
    ("vmls_n_u32", tvec U32 2, [tvec U32 2; tvec U32 2; TScal U32], 2650%Z);
    ("vmls_n_f32", tvec F32 2, [tvec F32 2; tvec F32 2; TScal F32], 2651%Z);
    ("vmlsq_n_s16", tvec I16 8, [tvec I16 8; tvec I16 8; TScal I16], 2654%Z);
    ("vmlsq_n_s32", tvec I32 4, [tvec I32 4; tvec I32 4; TScal I32], 2655%Z);
    ("vmlsq_n_u16", tvec U16 8, [tvec U16 8; tvec U16 8; TScal U16], 2656%Z);
    ("vmlsq_n_u32", tvec U32 4, [tvec U32 4; tvec U32 4; TScal U32], 2657%Z);
    ("vmlsq_n_f32", tvec F32 4, [tvec F32 4; tvec F32 4; TScal F32], 2658%Z);
    ("vmls_lane_s16", tvec I16 4, [tvec I16 4; tvec I16 4; tvec I16 4; TScal I32], 2661%Z);
    ("vmls_lane_s32", tvec I32 2, [tvec I32 2; tvec I32 2; tvec I32 2; TScal I32], 2662%Z);
    ("vmls_lane_u16", tvec U16 4, [tvec U16 4; tvec U16 4; tvec U16 4; TScal I32], 2663%Z);
    ("vmls_lane_u32", tvec U32 2, [tvec U32 2; tvec U32 2; tvec U32 2; TScal I32], 2664%Z);
    ("vmls_lane_f32", tvec F32 2, [tvec F32 2; tvec F32 2; tvec F32 2; TScal I32], 2665%Z);
    ("vmlsq_lane_s16", tvec I16 8, [tvec I16 8; tvec I16 8; tvec I16 4; TScal I32], 2668%Z);
    ("vmlsq_lane_s32", tvec I32 4, [tvec I32 4; tvec I32 4; tvec I32 2; TScal I32], 2669%Z);
    ("vmlsq_lane_u16", tvec U16 8, [tvec U16 8; tvec U16 8; tvec U16 4; TScal I32], 2670%Z);
    ("vmlsq_lane_u32", tvec U32 4, [tvec U32 4; tvec U32 4; tvec U32 2; TScal I32], 2671%Z);
    ("vmlsq_lane_f32", tvec F32 4, [tvec F32 4; tvec F32 4; tvec F32 2; TScal I32], 2672%Z);
    ("vmlsl_s8", tvec I16 8, [tvec I16 8; tvec I8 8; tvec I8 8], 2675%Z);
    ("vmlsl_s16", tvec I32 4, [tvec I32 4; tvec I16 4; tvec I16 4], 2676%Z);
    ("vmlsl_s32", tvec I64 2, [tvec I64 2; tvec I32 2; tvec I32 2], 2677%Z);
    ("vmlsl_u8", tvec U16 8, [tvec U16 8; tvec U8 8; tvec U8 8], 2678%Z);
    ("vmlsl_u16", tvec U32 4, [tvec U32 4; tvec U16 4; tvec U16 4], 2679%Z);
    ("vmlsl_u32", tvec U64 2, [tvec U64 2; tvec U32 2; tvec U32 2], 2680%Z);
    ("vmlsl_n_s16", tvec I32 4, [tvec I32 4; tvec I16 4; TScal I16], 2683%Z);
    ("vmlsl_n_s32", tvec I64 2, [tvec I64 2; tvec I32 2; TScal I32], 2684%Z);
    ("vmlsl_n_u16", tvec U32 4, [tvec U32 4; tvec U16 4; TScal U16], 2685%Z);
    ("vmlsl_n_u32", tvec U64 2, [tvec U64 2; tvec U32 2; TScal U32], 2686%Z);
    ("vmlsl_lane_s16", tvec I32 4, [tvec I32 4; tvec I16 4; tvec I16 4; TScal I32], 2689%Z);
    ("vmlsl_lane_s32", tvec I64 2, [tvec I64 2; tvec I32 2; tvec I32 2; TScal I32], 2690%Z);
    ("vmlsl_lane_u16", tvec U32 4, [tvec U32 4; tvec U16 4; tvec U16 4; TScal I32], 2691%Z);
    ("vmlsl_lane_u32", tvec U64 2, [tvec U64 2; tvec U32 2; tvec U32 2; TScal I32], 2692%Z);
    ("vfms_f32", tvec F32 2, [tvec F32 2; tvec F32 2; tvec F32 2], 2695%Z);
    ("vqdmlsl_s16", tvec I32 4, [tvec I32 4; tvec I16 4; tvec I16 4], 2698%Z);
    ("vqdmlsl_s32", tvec I64 2, [tvec I64 2; tvec I32 2; tvec I32 2], 2699%Z);
    ("vqdmlsl_n_s16", tvec I32 4, [tvec I32 4; tvec I16 4; TScal I16], 2702%Z);
    ("vqdmlsl_n_s32", tvec I64 2, [tvec I64 2; tvec I32 2; TScal I32], 2703%Z);
    ("vqdmlsl_lane_s16", tvec I32 4, [tvec I32 4; tvec I16 4; tvec I16 4; TScal I32], 2706%Z);
    ("vqdmlsl_lane_s32", tvec I64 2, [tvec I64 2; tvec I32 2; tvec I32 2; TScal I32], 2707%Z);
    ("vmax_s8", tvec I8 8, [tvec I8 8; tvec I8 8], 2714%Z);
    ("vmax_s16", tvec I16 4, [tvec I16 4; tvec I16 4], 2715%Z);
    ("vmax_s32", tvec I32 2, [tvec I32 2; tvec I32 2], 2716%Z);
    ("vmax_u8", tvec U8 8, [tvec U8 8; tvec U8 8], 2717%Z);
    ("vmax_u16", tvec U16 4, [tvec U16 4; tvec U16 4], 2718%Z);
    ("vmax_u32", tvec U32 2, [tvec U32 2; tvec U32 2], 2719%Z);
    ("vmax_f32", tvec F32 2, [tvec F32 2; tvec F32 2], 2720%Z);
    ("vmax_f64", tvec F64 1, [tvec F64 1; tvec F64 1], 2721%Z);
    ("vmaxq_s8", tvec I8 16, [tvec I8 16; tvec I8 16], 2727%Z);
    ("vmaxq_s16", tvec I16 8, [tvec I16 8; tvec I16 8], 2728%Z);
    ("vmaxq_s32", tvec I32 4, [tvec I32 4; tvec I32 4], 2729%Z);
    ("vmaxq_u8", tvec U8 16, [tvec U8 16; tvec U8 16], 2730%Z);
    ("vmaxq_u16", tvec U16 8, [tvec U16 8; tvec U16 8], 2731%Z);
    ("vmaxq_u32", tvec U32 4, [tvec U32 4; tvec U32 4], 2732%Z);
    ("vmaxq_f32", tvec F32 4, [tvec F32 4; tvec F32 4], 2733%Z);
    ("vmaxq_f64", tvec F64 2, [tvec F64 2; tvec F64 2], 2734%Z);
    ("vpmax_s8", tvec I8 8, [tvec I8 8; tvec I8 8], 2740%Z);
    ("vpmax_s16", tvec I16 4, [tvec I16 4; tvec I16 4], 2741%Z);
    ("vpmax_s32", tvec I32 2, [tvec I32 2; tvec I32 2], 2742%Z);
    ("vpmax_u8", tvec U8 8, [tvec U8 8; tvec U8 8], 2743%Z);
    ("vpmax_u16", tvec U16 4, [tvec U16 4; tvec U16 4], 2744%Z);
    ("vpmax_u32", tvec U32 2, [tvec U32 2; tvec U32 2], 2745%Z);
    ("vpmax_f32", tvec F32 2, [tvec F32 2; tvec F32 2], 2746%Z);
    ("vmin_s8", tvec I8 8, [tvec I8 8; tvec I8 8], 2752%Z);
    ("vmin_s16", tvec I16 4, [tvec I16 4; tvec I16 4], 2753%Z);
    ("vmin_s32", tvec I32 2, [tvec I32 2; tvec I32 2], 2754%Z);
    ("vmin_u8", tvec U8 8, [tvec U8 8; tvec U8 8], 2755%Z);
    ("vmin_u16", tvec U16 4, [tvec U16 4; tvec U16 4], 2756%Z);
    ("vmin_u32", tvec U32 2, [tvec U32 2; tvec U32 2], 2757%Z);
    ("vmin_f32", tvec F32 2, [tvec F32 2; tvec F32 2], 2758%Z);
    ("vmin_f64", tvec F64 1, [tvec F64 1; tvec F64 1], 2759%Z);
    ("vminq_s8", tvec I8 16, [tvec I8 16; tvec I8 16], 2765%Z);
    ("vminq_s16", tvec I16 8, [tvec I16 8; tvec I16 8], 2766%Z);
    ("vminq_s32", tvec I32 4, [tvec I32 4; tvec I32 4], 2767%Z);
    ("vminq_u8", tvec U8 16, [tvec U8 16; tvec U8 16], 2768%Z);
    ("vminq_u16", tvec U16 8, [tvec U16 8; tvec U16 8], 2769%Z);
    ("vminq_u32", tvec U32 4, [tvec U32 4; tvec U32 4], 2770%Z);
    ("vminq_f32", tvec F32 4, [tvec F32 4; tvec F32 4], 2771%Z);
    ("vminq_f64", tvec F64 2, [tvec F64 2; tvec F64 2], 2772%Z);
    ("vpmin_s8", tvec I8 8, [tvec I8 8; tvec I8 8], 2775%Z);
    ("vpmin_s16", tvec I16 4, [tvec I16 4; tvec I16 4], 2776%Z);
    ("vpmin_s32", tvec I32 2, [tvec I32 2; tvec I32 2], 2777%Z);
    ("vpmin_u8", tvec U8 8, [tvec U8 8; tvec U8 8], 2778%Z);
    ("vpmin_u16", tvec U16 4, [tvec U16 4; tvec U16 4], 2779%Z);
    ("vpmin_u32", tvec U32 2, [tvec U32 2; tvec U32 2], 2780%Z);
    ("vpmin_f32", tvec F32 2, [tvec F32 2; tvec F32 2], 2781%Z);
    ("vmaxv_s8", TScal I8, [tvec I8 8], 2784%Z);
    ("vmaxv_s16", TScal I16, [tvec I16 4], 2785%Z);
    ("vmaxv_s32", TScal I32, [tvec I32 2], 2786%Z);
    ("vmaxv_u8", TScal U8, [tvec U8 8], 2787%Z);
    ("vmaxv_u16", TScal U16, [tvec U16 4], 2788%Z);
    ("vmaxv_u32", TScal U32, [tvec U32 2], 2789%Z);
    ("vmaxv_f32", TScal F32, [tvec F32 2], 2790%Z);
    ("vmaxvq_s8", TScal I8, [tvec I8 16], 2793%Z);
    ("vmaxvq_s16", TScal I16, [tvec I16 8], 2794%Z);
    ("vmaxvq_s32", TScal I32, [tvec I32 4], 2795%Z);
    ("vmaxvq_u8", TScal U8, [tvec U8 16], 2796%Z);
    ("vmaxvq_u16", TScal U16, [tvec U16 8], 2797%Z);
    ("vmaxvq_u32", TScal U32, [tvec U32 4], 2798%Z);
    ("vmaxvq_f32", TScal F32, [tvec F32 4], 2799%Z);
    ("vmaxvq_f64", TScal F64, [tvec F64 2], 2800%Z);
    ("vmaxnm_f32", tvec F32 2, [tvec F32 2; tvec F32 2], 2803%Z);
    ("vmaxnm_f64", tvec F64 1, [tvec F64 1; tvec F64 1], 2804%Z);
    ("vmaxnmq_f32", tvec F32 4, [tvec F32 4; tvec F32 4], 2807%Z);
    ("vmaxnmq_f64", tvec F64 2, [tvec F64 2; tvec F64 2], 2808%Z);
    ("vmaxnmv_f32", TScal F32, [tvec F32 2], 2811%Z);
    ("vmaxnmq_f32", tvec F32 4, [tvec F32 4; tvec F32 4], 2814%Z);
    ("vmaxnmq_f64", tvec F64 2, [tvec F64 2; tvec F64 2], 2815%Z);
    ("vminv_s8", TScal I8, [tvec I8 8], 2824%Z);
    ("vminv_s16", TScal I16, [tvec I16 4], 2825%Z);
    ("vminv_s32", TScal I32, [tvec I32 2], 2826%Z);
    ("vminv_u8", TScal U8, [tvec U8 8], 2827%Z);
    ("vminv_u16", TScal U16, [tvec U16 4], 2828%Z);
    ("vminv_u32", TScal U32, [tvec U32 2], 2829%Z);
    ("vminv_f32", TScal F32, [tvec F32 2], 2830%Z);
    ("vminvq_s8", TScal I8, [tvec I8 16], 2833%Z);
    ("vminvq_s16", TScal I16, [tvec I16 8], 2834%Z);
    ("vminvq_s32", TScal I32, [tvec I32 4], 2835%Z);
    ("vminvq_u8", TScal U8, [tvec U8 16], 2836%Z);
    ("vminvq_u16", TScal U16, [tvec U16 8], 2837%Z);
    ("vminvq_u32", TScal U32, [tvec U32 4], 2838%Z);
    ("vminvq_f32", TScal F32, [tvec F32 4], 2839%Z);
    ("vminvq_f64", TScal F64, [tvec F64 2], 2840%Z);
    ("vminnm_f32", tvec F32 2, [tvec F32 2; tvec F32 2], 2843%Z);
    ("vminnm_f64", tvec F64 1, [tvec F64 1; tvec F64 1], 2844%Z);
    ("vminnmq_f32", tvec F32 4, [tvec F32 4; tvec F32 4], 2850%Z);
    ("vminnmq_f64", tvec F64 2, [tvec F64 2; tvec F64 2], 2851%Z);
    ("vminnmv_f32", TScal F32, [tvec F32 2], 2857%Z);
    ("vminnmq_f32", tvec F32 4, [tvec F32 4; tvec F32 4], 2860%Z);
    ("vminnmq_f64", tvec F64 2, [tvec F64 2; tvec F64 2], 2861%Z);
    ("vceq_s8", tvec U8 8, [tvec I8 8; tvec I8 8], 2874%Z);
    ("vceq_s16", tvec U16 4, [tvec I16 4; tvec I16 4], 2875%Z);
    ("vceq_s32", tvec U32 2, [tvec I32 2; tvec I32 2], 2876%Z);
    ("vceq_u8", tvec U8 8, [tvec U8 8; tvec U8 8], 2877%Z);
    ("vceq_u16", tvec U16 4, [tvec U16 4; tvec U16 4], 2878%Z);
    ("vceq_u32", tvec U32 2, [tvec U32 2; tvec U32 2], 2879%Z);
    ("vceq_f32", tvec U32 2, [tvec F32 2; tvec F32 2], 2880%Z);
    ("vceq_s64", tvec U64 1, [tvec I64 1; tvec I64 1], 2881%Z);
    ("vceq_u64", tvec U64 1, [tvec U64 1; tvec U64 1], 2882%Z);
    ("vceq_f64", tvec U64 1, [tvec F64 1; tvec F64 1], 2883%Z);
    ("vceqq_s8", tvec U8 16, [tvec I8 16; tvec I8 16], 2886%Z);
    ("vceqq_s16", tvec U16 8, [tvec I16 8; tvec I16 8], 2887%Z);
    ("vceqq_s32", tvec U32 4, [tvec I32 4; tvec I32 4], 2888%Z);
    ("vceqq_u8", tvec U8 16, [tvec U8 16; tvec U8 16], 2889%Z);
    ("vceqq_u16", tvec U16 8, [tvec U16 8; tvec U16 8], 2890%Z);
    ("vceqq_u32", tvec U32 4, [tvec U32 4; tvec U32 4], 2891%Z);
    ("vceqq_f32", tvec U32 4, [tvec F32 4; tvec F32 4], 2892%Z);
    ("vceqq_s64", tvec U64 2, [tvec I64 2; tvec I64 2], 2893%Z);
    ("vceqq_u64", tvec U64 2, [tvec U64 2; tvec U64 2], 2894%Z);
    ("vceqq_f64", tvec U64 2, [tvec F64 2; tvec F64 2], 2895%Z);
    ("vcge_s8", tvec U8 8, [tvec I8 8; tvec I8 8], 2898%Z);
    ("vcge_s16", tvec U16 4, [tvec I16 4; tvec I16 4], 2899%Z);
    ("vcge_s32", tvec U32 2, [tvec I32 2; tvec I32 2], 2900%Z);
    ("vcge_u8", tvec U8 8, [tvec U8 8; tvec U8 8], 2901%Z);
    ("vcge_u16", tvec U16 4, [tvec U16 4; tvec U16 4], 2902%Z);
    ("vcge_u32", tvec U32 2, [tvec U32 2; tvec U32 2], 2903%Z);
    ("vcge_f32", tvec U32 2, [tvec F32 2; tvec F32 2], 2904%Z);
    ("vcge_s64", tvec U64 1, [tvec I64 1; tvec I64 1], 2905%Z);
    ("vcge_u64", tvec U64 1, [tvec U64 1; tvec U64 1], 2906%Z);
    ("vcge_f64", tvec U64 1, [tvec F64 1; tvec F64 1], 2907%Z);
    ("vcgeq_s8", tvec U8 16, [tvec I8 16; tvec I8 16], 2913%Z);
    ("vcgeq_s16", tvec U16 8, [tvec I16 8; tvec I16 8], 2914%Z);
    ("vcgeq_s32", tvec U32 4, [tvec I32 4; tvec I32 4], 2915%Z);
    ("vcgeq_u8", tvec U8 16, [tvec U8 16; tvec U8 16], 2916%Z);
    ("vcgeq_u16", tvec U16 8, [tvec U16 8; tvec U16 8], 2917%Z);
    ("vcgeq_u32", tvec U32 4, [tvec U32 4; tvec U32 4], 2918%Z);
    ("vcgeq_f32", tvec U32 4, [tvec F32 4; tvec F32 4], 2919%Z);
    ("vcgeq_s64", tvec U64 2, [tvec I64 2; tvec I64 2], 2920%Z);
    ("vcgeq_u64", tvec U64 2, [tvec U64 2; tvec U64 2], 2921%Z);
    ("vcgeq_f64", tvec U64 2, [tvec F64 2; tvec F64 2], 2922%Z);
    ("vcle_s8", tvec U8 8, [tvec I8 8; tvec I8 8], 2928%Z);
    ("vcle_s16", tvec U16 4, [tvec I16 4; tvec I16 4], 2929%Z);
    ("vcle_s32", tvec U32 2, [tvec I32 2; tvec I32 2], 2930%Z);
    ("vcle_u8", tvec U8 8, [tvec U8 8; tvec U8 8], 2931%Z);
    ("vcle_u16", tvec U16 4, [tvec U16 4; tvec U16 4], 2932%Z);
    ("vcle_u32", tvec U32 2, [tvec U32 2; tvec U32 2], 2933%Z);
    ("vcle_f32", tvec U32 2, [tvec F32 2; tvec F32 2], 2934%Z);
    ("vcle_s64", tvec U64 1, [tvec I64 1; tvec I64 1], 2935%Z);
    ("vcle_u64", tvec U64 1, [tvec U64 1; tvec U64 1], 2936%Z);
    ("vcle_f64", tvec U64 1, [tvec F64 1; tvec F64 1], 2937%Z);
    ("vcleq_s8", tvec U8 16, [tvec I8 16; tvec I8 16], 2943%Z);
    ("vcleq_s16", tvec U16 8, [tvec I16 8; tvec I16 8], 2944%Z);
    ("vcleq_s32", tvec U32 4, [tvec I32 4; tvec I32 4], 2945%Z);
    ("vcleq_u8", tvec U8 16, [tvec U8 16; tvec U8 16], 2946%Z);
    ("vcleq_u16", tvec U16 8, [tvec U16 8; tvec U16 8], 2947%Z);
    ("vcleq_u32", tvec U32 4, [tvec U32 4; tvec U32 4], 2948%Z);
    ("vcleq_f32", tvec U32 4, [tvec F32 4; tvec F32 4], 2949%Z);
    ("vcleq_s64", tvec U64 2, [tvec I64 2; tvec I64 2], 2950%Z);
    ("vcleq_u64", tvec U64 2, [tvec U64 2; tvec U64 2], 2951%Z);
    ("vcleq_f64", tvec U64 2, [tvec F64 2; tvec F64 2], 2952%Z);
    ("vcgt_s8", tvec U8 8, [tvec I8 8; tvec I8 8], 2958%Z);
    ("vcgt_s16", tvec U16 4, [tvec I16 4; tvec I16 4], 2959%Z);
    ("vcgt_s32", tvec U32 2, [tvec I32 2; tvec I32 2], 2960%Z);
    ("vcgt_u8", tvec U8 8, [tvec U8 8; tvec U8 8], 2961%Z);
    ("vcgt_u16", tvec U16 4, [tvec U16 4; tvec U16 4], 2962%Z);
    ("vcgt_u32", tvec U32 2, [tvec U32 2; tvec U32 2], 2963%Z);
    ("vcgt_f32", tvec U32 2, [tvec F32 2; tvec F32 2], 2964%Z);
    ("vcgt_s64", tvec U64 1, [tvec I64 1; tvec I64 1], 2965%Z);
    ("vcgt_u64", tvec U64 1, [tvec U64 1; tvec U64 1], 2966%Z);
    ("vcgt_f64", tvec U64 1, [tvec F64 1; tvec F64 1], 2967%Z);
    ("vcgtq_s8", tvec U8 16, [tvec I8 16; tvec I8 16], 2973%Z);
    ("vcgtq_s16", tvec U16 8, [tvec I16 8; tvec I16 8], 2974%Z);
    ("vcgtq_s32", tvec U32 4, [tvec I32 4; tvec I32 4], 2975%Z);
    ("vcgtq_u8", tvec U8 16, [tvec U8 16; tvec U8 16], 2976%Z);
    ("vcgtq_u16", tvec U16 8, [tvec U16 8; tvec U16 8], 2977%Z);
    ("vcgtq_u32", tvec U32 4, [tvec U32 4; tvec U32 4], 2978%Z);
    ("vcgtq_f32", tvec U32 4, [tvec F32 4; tvec F32 4], 2979%Z);
    ("vcgtq_s64", tvec U64 2, [tvec I64 2; tvec I64 2], 2980%Z);
    ("vcgtq_u64", tvec U64 2, [tvec U64 2; tvec U64 2], 2981%Z);
    ("vcgtq_f64", tvec U64 2, [tvec F64 2; tvec F64 2], 2982%Z);
    ("vclt_s8", tvec U8 8, [tvec I8 8; tvec I8 8], 2988%Z);
    ("vclt_s16", tvec U16 4, [tvec I16 4; tvec I16 4], 2989%Z);
    ("vclt_s32", tvec U32 2, [tvec I32 2; tvec I32 2], 2990%Z);
    ("vclt_u8", tvec U8 8, [tvec U8 8; tvec U8 8], 2991%Z);
    ("vclt_u16", tvec U16 4, [tvec U16 4; tvec U16 4], 2992%Z);
    ("vclt_u32", tvec U32 2, [tvec U32 2; tvec U32 2], 2993%Z);
    ("vclt_f32", tvec U32 2, [tvec F32 2; tvec F32 2], 2994%Z);
    ("vclt_s64", tvec U64 1, [tvec I64 1; tvec I64 1], 2995%Z);
    ("vclt_u64", tvec U64 1, [tvec U64 1; tvec U64 1], 2996%Z);
    ("vclt_f64", tvec U64 1, [tvec F64 1; tvec F64 1], 2997%Z);
    ("vcltq_s8", tvec U8 16, [tvec I8 16; tvec I8 16], 3003%Z);
    ("vcltq_s16", tvec U16 8, [tvec I16 8; tvec I16 8], 3004%Z);
    ("vcltq_s32", tvec U32 4, [tvec I32 4; tvec I32 4], 3005%Z);
    ("vcltq_u8", tvec U8 16, [tvec U8 16; tvec U8 16], 3006%Z);
    ("vcltq_u16", tvec U16 8, [tvec U16 8; tvec U16 8], 3007%Z);
    ("vcltq_u32", tvec U32 4, [tvec U32 4; tvec U32 4], 3008%Z);
    ("vcltq_f32", tvec U32 4, [tvec F32 4; tvec F32 4], 3009%Z);
    ("vcltq_s64", tvec U64 2, [tvec I64 2; tvec I64 2], 3010%Z);
    ("vcltq_u64", tvec U64 2, [tvec U64 2; tvec U64 2], 3011%Z);
    ("vcltq_f64", tvec U64 2, [tvec F64 2; tvec F64 2], 3012%Z);
    ("vcage_f32", tvec U32 2, [tvec F32 2; tvec F32 2], 3018%Z);
    ("vcageq_f32", tvec U32 4, [tvec F32 4; tvec F32 4], 3021%Z);
    ("vcale_f32", tvec U32 2, [tvec F32 2; tvec F32 2], 3024%Z);
    ("vcaleq_f32", tvec U32 4, [tvec F32 4; tvec F32 4], 3027%Z);
    ("vcagt_f32", tvec U32 2, [tvec F32 2; tvec F32 2], 3030%Z);
    ("vcagtq_f32", tvec U32 4, [tvec F32 4; tvec F32 4], 3033%Z);
    ("vcalt_f32", tvec U32 2, [tvec F32 2; tvec F32 2], 3036%Z);
    ("vcaltq_f32", tvec U32 4, [tvec F32 4; tvec F32 4], 3039%Z);
    ("vtst_s8", tvec U8 8, [tvec I8 8; tvec I8 8], 3042%Z);
    ("vtst_s16", tvec U16 4, [tvec I16 4; tvec I16 4], 3043%Z);
    ("vtst_s32", tvec U32 2, [tvec I32 2; tvec I32 2], 3044%Z);
    ("vtst_u8", tvec U8 8, [tvec U8 8; tvec U8 8], 3045%Z);
    ("vtst_u16", tvec U16 4, [tvec U16 4; tvec U16 4], 3046%Z);
    ("vtst_u32", tvec U32 2, [tvec U32 2; tvec U32 2], 3047%Z);
    ("vtst_s64", tvec U64 1, [tvec I64 1; tvec I64 1], 3048%Z);
    ("vtst_u64", tvec U64 1, [tvec U64 1; tvec U64 1], 3049%Z);
    ("vtstq_s8", tvec U8 16, [tvec I8 16; tvec I8 16], 3052%Z);
    ("vtstq_s16", tvec U16 8, [tvec I16 8; tvec I16 8], 3053%Z);
    ("vtstq_s32", tvec U32 4, [tvec I32 4; tvec I32 4], 3054%Z);
    ("vtstq_u8", tvec U8 16, [tvec U8 16; tvec U8 16], 3055%Z);
    ("vtstq_u16", tvec U16 8, [tvec U16 8; tvec U16 8], 3056%Z);
    ("vtstq_u32", tvec U32 4, [tvec U32 4; tvec U32 4], 3057%Z);
    ("vtstq_s64", tvec U64 2, [tvec I64 2; tvec I64 2], 3058%Z);
    ("vtstq_u64", tvec U64 2, [tvec U64 2; tvec U64 2], 3059%Z);
    ("vrndn_f32", tvec F32 2, [tvec F32 2], 3066%Z);
    ("vrndn_f64", tvec F64 1, [tvec F64 1], 3067%Z);
    ("vrndnq_f32", tvec F32 4, [tvec F32 4], 3073%Z);
    ("vrndnq_f64", tvec F64 2, [tvec F64 2], 3074%Z);
    ("vrnda_f32", tvec F32 2, [tvec F32 2], 3080%Z);
    ("vrnda_f64", tvec F64 1, [tvec F64 1], 3081%Z);
    ("vrndaq_f32", tvec F32 4, [tvec F32 4], 3087%Z);
    ("vrndaq_f64", tvec F64 2, [tvec F64 2], 3088%Z);
    ("vrndp_f32", tvec F32 2, [tvec F32 2], 3094%Z);
    ("vrndp_f64", tvec F64 1, [tvec F64 1], 3095%Z);
    ("vrndpq_f32", tvec F32 4, [tvec F32 4], 3101%Z);
    ("vrndpq_f64", tvec F64 2, [tvec F64 2], 3102%Z);
    ("vrndm_f32", tvec F32 2, [tvec F32 2], 3108%Z);
    ("vrndm_f64", tvec F64 1, [tvec F64 1], 3109%Z);
    ("vrndmq_f32", tvec F32 4, [tvec F32 4], 3115%Z);
    ("vrndmq_f64", tvec F64 2, [tvec F64 2], 3116%Z);
    ("vrnd_f32", tvec F32 2, [tvec F32 2], 3122%Z);
    ("vrnd_f64", tvec F64 1, [tvec F64 1], 3123%Z);
    ("vrndq_f32", tvec F32 4, [tvec F32 4], 3129%Z);
    ("vrndq_f64", tvec F64 2, [tvec F64 2], 3130%Z);
    ("vabs_s8", tvec I8 8, [tvec I8 8], 3140%Z);
    ("vabs_s16", tvec I16 4, [tvec I16 4], 3141%Z);
    ("vabs_s32", tvec I32 2, [tvec I32 2], 3142%Z);
    ("vabs_f32", tvec F32 2, [tvec F32 2], 3143%Z);
    ("vabs_s64", tvec I64 1, [tvec I64 1], 3144%Z);
    ("vabs_f64", tvec F64 1, [tvec F64 1], 3145%Z);
    ("vabsq_s8", tvec I8 16, [tvec I8 16], 3151%Z);
    ("vabsq_s16", tvec I16 8, [tvec I16 8], 3152%Z);
    ("vabsq_s32", tvec I32 4, [tvec I32 4], 3153%Z);
    ("vabsq_f32", tvec F32 4, [tvec F32 4], 3154%Z);
    ("vabsq_s64", tvec I64 2, [tvec I64 2], 3155%Z);
    ("vabsq_f64", tvec F64 2, [tvec F64 2], 3156%Z);
    ("vqabs_s8", tvec I8 8, [tvec I8 8], 3162%Z);
    ("vqabs_s16", tvec I16 4, [tvec I16 4], 3163%Z);
    ("vqabs_s32", tvec I32 2, [tvec I32 2], 3164%Z);
    ("vqabs_s64", tvec I64 1, [tvec I64 1], 3165%Z);
    ("vqabsq_s8", tvec I8 16, [tvec I8 16], 3168%Z);
    ("vqabsq_s16", tvec I16 8, [tvec I16 8], 3169%Z);
    ("vqabsq_s32", tvec I32 4, [tvec I32 4], 3170%Z);
    ("vqabsq_s64", tvec I64 2, [tvec I64 2], 3171%Z);
    ("vabd_s8", tvec I8 8, [tvec I8 8; tvec I8 8], 3174%Z);
    ("vabd_s16", tvec I16 4, [tvec I16 4; tvec I16 4], 3175%Z);
    ("vabd_s32", tvec I32 2, [tvec I32 2; tvec I32 2], 3176%Z);
    ("vabd_u8", tvec U8 8, [tvec U8 8; tvec U8 8], 3177%Z);
    ("vabd_u16", tvec U16 4, [tvec U16 4; tvec U16 4], 3178%Z);
    ("vabd_u32", tvec U32 2, [tvec U32 2; tvec U32 2], 3179%Z);
    ("vabd_f32", tvec F32 2, [tvec F32 2; tvec F32 2], 3180%Z);
    ("vabd_f64", tvec F64 1, [tvec F64 1; tvec F64 1], 3181%Z);
    ("vabdq_s8", tvec I8 16, [tvec I8 16; tvec I8 16], 3187%Z);
    ("vabdq_s16", tvec I16 8, [tvec I16 8; tvec I16 8], 3188%Z);
    ("vabdq_s32", tvec I32 4, [tvec I32 4; tvec I32 4], 3189%Z);
    ("vabdq_u8", tvec U8 16, [tvec U8 16; tvec U8 16], 3190%Z);
    ("vabdq_u16", tvec U16 8, [tvec U16 8; tvec U16 8], 3191%Z);
    ("vabdq_u32", tvec U32 4, [tvec U32 4; tvec U32 4], 3192%Z);
    ("vabdq_f32", tvec F32 4, [tvec F32 4; tvec F32 4], 3193%Z);
    ("vabdq_f64", tvec F64 2, [tvec F64 2; tvec F64 2], 3194%Z);
    ("vabdl_s8", tvec I16 8, [tvec I8 8; tvec I8 8], 3200%Z);
    ("vabdl_s16", tvec I32 4, [tvec I16 4; tvec I16 4], 3201%Z);
    ("vabdl_s32", tvec I64 2, [tvec I32 2; tvec I32 2], 3202%Z);
    ("vabdl_u8", tvec U16 8, [tvec U8 8; tvec U8 8], 3203%Z);
    ("vabdl_u16", tvec U32 4, [tvec U16 4; tvec U16 4], 3204%Z);
    ("vabdl_u32", tvec U64 2, [tvec U32 2; tvec U32 2], 3205%Z);
    ("vabdl_high_s8", tvec I16 8, [tvec I8 16; tvec I8 16], 3208%Z);
    ("vabdl_high_s16", tvec I32 4, [tvec I16 8; tvec I16 8], 3209%Z);
    ("vabdl_high_s32", tvec I64 2, [tvec I32 4; tvec I32 4], 3210%Z);
    ("vabdl_high_u8", tvec U16 8, [tvec U8 16; tvec U8 16], 3211%Z);
    ("vabdl_high_u16", tvec U32 4, [tvec U16 8; tvec U16 8], 3212%Z);
    ("vabdl_high_u32", tvec U64 2, [tvec U32 4; tvec U32 4], 3213%Z);
    ("vaba_s8", tvec I8 8, [tvec I8 8; tvec I8 8; tvec I8 8], 3216%Z);
    ("vaba_s16", tvec I16 4, [tvec I16 4; tvec I16 4; tvec I16 4], 3217%Z);
    ("vaba_s32", tvec I32 2, [tvec I32 2; tvec I32 2; tvec I32 2], 3218%Z);
    ("vaba_u8", tvec U8 8, [tvec U8 8; tvec U8 8; tvec U8 8], 3219%Z);
    ("vaba_u16", tvec U16 4, [tvec U16 4; tvec U16 4; tvec U16 4], 3220%Z);
    ("vaba_u32", tvec U32 2, [tvec U32 2; tvec U32 2; tvec U32 2], 3221%Z);
    ("vabaq_s8", tvec I8 16, [tvec I8 16; tvec I8 16; tvec I8 16], 3224%Z);
    ("vabaq_s16", tvec I16 8, [tvec I16 8; tvec I16 8; tvec I16 8], 3225%Z);
    ("vabaq_s32", tvec I32 4, [tvec I32 4; tvec I32 4; tvec I32 4], 3226%Z);
    ("vabaq_u8", tvec U8 16, [tvec U8 16; tvec U8 16; tvec U8 16], 3227%Z);
    ("vabaq_u16", tvec U16 8, [tvec U16 8; tvec U16 8; tvec U16 8], 3228%Z);
    ("vabaq_u32", tvec U32 4, [tvec U32 4; tvec U32 4; tvec U32 4], 3229%Z);
    ("vabal_s8", tvec I16 8, [tvec I16 8; tvec I8 8; tvec I8 8], 3232%Z);
    ("vabal_s16", tvec I32 4, [tvec I32 4; tvec I16 4; tvec I16 4], 3233%Z);
    ("vabal_s32", tvec I64 2, [tvec I64 2; tvec I32 2; tvec I32 2], 3234%Z);
    ("vabal_u8", tvec U16 8, [tvec U16 8; tvec U8 8; tvec U8 8], 3235%Z);
    ("vabal_u16", tvec U32 4, [tvec U32 4; tvec U16 4; tvec U16 4], 3236%Z);
    ("vabal_u32", tvec U64 2, [tvec U64 2; tvec U32 2; tvec U32 2], 3237%Z);
    ("vabal_high_s8", tvec I16 8, [tvec I16 8; tvec I8 16; tvec I8 16], 3240%Z);
    ("vabal_high_s16", tvec I32 4, [tvec I32 4; tvec I16 8; tvec I16 8], 3241%Z);
    ("vabal_high_s32", tvec I64 2, [tvec I64 2; tvec I32 4; tvec I32 4], 3242%Z);
    ("vabal_high_u8", tvec U16 8, [tvec U16 8; tvec U8 16; tvec U8 16], 3243%Z);
    ("vabal_high_u16", tvec U32 4, [tvec U32 4; tvec U16 8; tvec U16 8], 3244%Z);
    ("vabal_high_u32", tvec U64 2, [tvec U64 2; tvec U32 4; tvec U32 4], 3245%Z);
    ("vrecpe_u32", tvec U32 2, [tvec U32 2], 3252%Z);
    ("vrecpe_f32", tvec F32 2, [tvec F32 2], 3253%Z);
    ("vrecpe_f64", tvec F64 1, [tvec F64 1], 3254%Z);
    ("vrecpeq_u32", tvec U32 4, [tvec U32 4], 3260%Z);
    ("vrecpeq_f32", tvec F32 4, [tvec F32 4], 3261%Z);
    ("vrecpeq_f64", tvec F64 2, [tvec F64 2], 3262%Z);
    ("vrecps_f32", tvec F32 2, [tvec F32 2; tvec F32 2], 3268%Z);
    ("vrecps_f64", tvec F64 1, [tvec F64 1; tvec F64 1], 3269%Z);
    ("vrecpsq_f32", tvec F32 4, [tvec F32 4; tvec F32 4], 3275%Z);
    ("vrecpsq_f64", tvec F64 2, [tvec F64 2; tvec F64 2], 3276%Z);
    ("vrsqrte_u32", tvec U32 2, [tvec U32 2], 3286%Z);
    ("vrsqrte_f32", tvec F32 2, [tvec F32 2], 3287%Z);
    ("vrsqrte_f64", tvec F64 1, [tvec F64 1], 3288%Z);
    ("vrsqrteq_u32", tvec U32 4, [tvec U32 4], 3294%Z);
    ("vrsqrteq_f32", tvec F32 4, [tvec F32 4], 3295%Z);
    ("vrsqrteq_f64", tvec F64 2, [tvec F64 2], 3296%Z);
    ("vrsqrts_f32", tvec F32 2, [tvec F32 2; tvec F32 2], 3302%Z);
    ("vrsqrts_f64", tvec F64 1, [tvec F64 1; tvec F64 1], 3303%Z);
    ("vrsqrtsq_f32", tvec F32 4, [tvec F32 4; tvec F32 4], 3309%Z);
    ("vrsqrtsq_f64", tvec F64 2, [tvec F64 2; tvec F64 2], 3310%Z);
    ("vand_s8", tvec I8 8, [tvec I8 8; tvec I8 8], 3317%Z);
    ("vand_s16", tvec I16 4, [tvec I16 4; tvec I16 4], 3318%Z);
    ("vand_s32", tvec I32 2, [tvec I32 2; tvec I32 2], 3319%Z);
    ("vand_s64", tvec I64 1, [tvec I64 1; tvec I64 1], 3320%Z);
    ("vand_u8", tvec U8 8, [tvec U8 8; tvec U8 8], 3321%Z);
    ("vand_u16", tvec U16 4, [tvec U16 4; tvec U16 4], 3322%Z);
    ("vand_u32", tvec U32 2, [tvec U32 2; tvec U32 2], 3323%Z);
    ("vand_u64", tvec U64 1, [tvec U64 1; tvec U64 1], 3324%Z);
    ("vandq_s8", tvec I8 16, [tvec I8 16; tvec I8 16], 3326%Z);
    ("vandq_s16", tvec I16 8, [tvec I16 8; tvec I16 8], 3327%Z);
    ("vandq_s32", tvec I32 4, [tvec I32 4; tvec I32 4], 3328%Z);
    ("vandq_s64", tvec I64 2, [tvec I64 2; tvec I64 2], 3329%Z);
    ("vandq_u8", tvec U8 16, [tvec U8 16; tvec U8 16], 3330%Z);
    ("vandq_u16", tvec U16 8, [tvec U16 8; tvec U16 8], 3331%Z);
    ("vandq_u32", tvec U32 4, [tvec U32 4; tvec U32 4], 3332%Z);
    ("vandq_u64", tvec U64 2, [tvec U64 2; tvec U64 2], 3333%Z);
    ("vorr_s8", tvec I8 8, [tvec I8 8; tvec I8 8], 3337%Z);
    ("vorr_s16", tvec I16 4, [tvec I16 4; tvec I16 4], 3338%Z);
    ("vorr_s32", tvec I32 2, [tvec I32 2; tvec I32 2], 3339%Z);
    ("vorr_s64", tvec I64 1, [tvec I64 1; tvec I64 1], 3340%Z);
    ("vorr_u8", tvec U8 8, [tvec U8 8; tvec U8 8], 3341%Z);
    ("vorr_u16", tvec U16 4, [tvec U16 4; tvec U16 4], 3342%Z);
    ("vorr_u32", tvec U32 2, [tvec U32 2; tvec U32 2], 3343%Z);
    ("vorr_u64", tvec U64 1, [tvec U64 1; tvec U64 1], 3344%Z);
    ("vorrq_s8", tvec I8 16, [tvec I8 16; tvec I8 16], 3346%Z);
    ("vorrq_s16", tvec I16 8, [tvec I16 8; tvec I16 8], 3347%Z);
    ("vorrq_s32", tvec I32 4, [tvec I32 4; tvec I32 4], 3348%Z);
    ("vorrq_s64", tvec I64 2, [tvec I64 2; tvec I64 2], 3349%Z);
    ("vorrq_u8", tvec U8 16, [tvec U8 16; tvec U8 16], 3350%Z);
    ("vorrq_u16", tvec U16 8, [tvec U16 8; tvec U16 8], 3351%Z);
    ("vorrq_u32", tvec U32 4, [tvec U32 4; tvec U32 4], 3352%Z);
    ("vorrq_u64", tvec U64 2, [tvec U64 2; tvec U64 2], 3353%Z);
    ("veor_s8", tvec I8 8, [tvec I8 8; tvec I8 8], 3357%Z);
    ("veor_s16", tvec I16 4, [tvec I16 4; tvec I16 4], 3358%Z);
    ("veor_s32", tvec I32 2, [tvec I32 2; tvec I32 2], 3359%Z);
    ("veor_s64", tvec I64 1, [tvec I64 1; tvec I64 1], 3360%Z);
    ("veor_u8", tvec U8 8, [tvec U8 8; tvec U8 8], 3361%Z);
    ("veor_u16", tvec U16 4, [tvec U16 4; tvec U16 4], 3362%Z);
    ("veor_u32", tvec U32 2, [tvec U32 2; tvec U32 2], 3363%Z);
    ("veor_u64", tvec U64 1, [tvec U64 1; tvec U64 1], 3364%Z);
    ("veorq_s8", tvec I8 16, [tvec I8 16; tvec I8 16], 3366%Z);
    ("veorq_s16", tvec I16 8, [tvec I16 8; tvec I16 8], 3367%Z);
    ("veorq_s32", tvec I32 4, [tvec I32 4; tvec I32 4], 3368%Z);
    ("veorq_s64", tvec I64 2, [tvec I64 2; tvec I64 2], 3369%Z);
    ("veorq_u8", tvec U8 16, [tvec U8 16; tvec U8 16], 3370%Z);
    ("veorq_u16", tvec U16 8, [tvec U16 8; tvec U16 8], 3371%Z);
    ("veorq_u32", tvec U32 4, [tvec U32 4; tvec U32 4], 3372%Z);
    ("veorq_u64", tvec U64 2, [tvec U64 2; tvec U64 2], 3373%Z);
    ("vmvn_s8", tvec I8 8, [tvec I8 8], 3377%Z);
    ("vmvn_s16", tvec I16 4, [tvec I16 4], 3378%Z);
    ("vmvn_s32", tvec I32 2, [tvec I32 2], 3379%Z);
    ("vmvn_u8", tvec U8 8, [tvec U8 8], 3380%Z);
    ("vmvn_u16", tvec U16 4, [tvec U16 4], 3381%Z);
    ("vmvn_u32", tvec U32 2, [tvec U32 2], 3382%Z);
    ("vmvnq_s8", tvec I8 16, [tvec I8 16], 3385%Z);
    ("vmvnq_s16", tvec I16 8, [tvec I16 8], 3386%Z);
    ("vmvnq_s32", tvec I32 4, [tvec I32 4], 3387%Z);
    ("vmvnq_u8", tvec U8 16, [tvec U8 16], 3388%Z);
    ("vmvnq_u16", tvec U16 8, [tvec U16 8], 3389%Z);
    ("vmvnq_u32", tvec U32 4, [tvec U32 4], 3390%Z);
    ("vdiv_f32", tvec F32 2, [tvec F32 2; tvec F32 2], 3396%Z);
    ("vdiv_f64", tvec F64 1, [tvec F64 1; tvec F64 1], 3397%Z);
    ("vdivq_f32", tvec F32 4, [tvec F32 4; tvec F32 4], 3402%Z);
    ("vdivq_f64", tvec F64 2, [tvec F64 2; tvec F64 2], 3403%Z) ].
