(** The executable C++11 semantics of the fragment in [Syntax]. *)
From Coq Require Import ZArith List String Bool.
From Coq Require Import Floats.SpecFloat.
From Verif Require Import Types FloatBits Syntax.
Import ListNotations.
Open Scope Z_scope.

(** ** Configuration: what the language leaves open *)

Inductive fop := FAdd | FSub | FMul | FDiv | FCvt.

Record cfg := mkcfg {
  wrapv : bool;
    (* false: signed overflow and << of/into the sign bit are undefined (C++11);
       true: they wrap, as with -fwrapv *)
  nan_of : fop -> sty -> Z -> Z -> Z
    (* the sign/payload of a NaN result, from the operands' bit patterns *)
}.

(** ** Outcomes *)

Inductive ub :=
| SignedOverflow | BadShift | OutOfBounds | Uninitialised
| FloatCast | DivByZero | MissingReturn.

Inductive err := EUB (k : ub) | EAbort | ETimeout | EStuck.

Inductive res (A : Type) := Ok (a : A) | Err (e : err).
Arguments Ok {A}. Arguments Err {A}.

Definition bind {A B} (r : res A) (f : A -> res B) : res B :=
  match r with Ok a => f a | Err e => Err e end.
Notation "'let*' x ':=' r 'in' k" := (bind r (fun x => k))
  (at level 200, x name, r at level 100, k at level 200).

(** ** Objects and memory *)

(** [OScal t None] is an uninitialised scalar. *)
Inductive obj :=
| OScal (t : sty) (v : option Z)
| OArr (l : list obj)
| OPtr (t : sty) (b : nat) (off : Z).

(** Memory reachable through pointers: a list of typed objects. *)
Definition block : Type := sty * list (option Z).
Definition memory : Type := list block.
Definition env : Type := list (string * obj).

(** An object of type [t] before any assignment. *)
Fixpoint fresh (t : ty) : obj :=
  match t with
  | TVoid => OArr []
  | TScal s => OScal s None
  | TArr n t' => OArr (repeat (fresh t') n)
  | TStruct l => OArr (map fresh l)
  | TPtr s => OPtr s 0 0
  end.

Fixpoint lookup (x : string) (en : env) : option obj :=
  match en with
  | [] => None
  | (y, o) :: en' => if String.eqb x y then Some o else lookup x en'
  end.

Fixpoint update (x : string) (o : obj) (en : env) : env :=
  match en with
  | [] => []
  | (y, o') :: en' =>
      if String.eqb x y then (y, o) :: en' else (y, o') :: update x o en'
  end.

Fixpoint set_nth {A} (n : nat) (a : A) (l : list A) : list A :=
  match l, n with
  | [], _ => []
  | _ :: l', O => a :: l'
  | x :: l', S n' => x :: set_nth n' a l'
  end.

(** Element [i] of a list, where [i] must be a valid index. *)
Definition get_idx {A} (l : list A) (i : Z) : res A :=
  if i <? 0 then Err (EUB OutOfBounds) else
  match nth_error l (Z.to_nat i) with
  | Some a => Ok a
  | None => Err (EUB OutOfBounds)
  end.

Definition mem_read (m : memory) (t : sty) (b : nat) (i : Z) : res obj :=
  match nth_error m b with
  | Some (t', cells) =>
      if sty_eqb t t' then
        let* v := get_idx cells i in Ok (OScal t v)
      else Err EStuck
  | None => Err (EUB OutOfBounds)
  end.

Definition mem_write (m : memory) (t : sty) (b : nat) (i : Z) (z : Z)
  : res memory :=
  match nth_error m b with
  | Some (t', cells) =>
      if sty_eqb t t' then
        let* _ := get_idx cells i in
        Ok (set_nth b (t', set_nth (Z.to_nat i) (Some z) cells) m)
      else Err EStuck
  | None => Err (EUB OutOfBounds)
  end.

(** ** Conversions and arithmetic *)

(** The value of a scalar object; reading an uninitialised one is undefined. *)
Definition scalar (o : obj) : res (sty * Z) :=
  match o with
  | OScal t (Some z) => Ok (t, z)
  | OScal _ None => Err (EUB Uninitialised)
  | _ => Err EStuck
  end.

Definition rv (t : sty) (z : Z) : obj := OScal t (Some z).

(** Integer promotion [conv.prom]. *)
Definition promote (t : sty) : sty :=
  match t with I8 | I16 | U8 | U16 => I32 | _ => t end.

(** Usual arithmetic conversions [expr]/10. *)
Definition usual (t1 t2 : sty) : sty :=
  match t1, t2 with
  | F64, _ | _, F64 => F64
  | F32, _ | _, F32 => F32
  | U64, _ | _, U64 => U64
  | I64, _ | _, I64 => I64
  | U32, _ | _, U32 => U32
  | _, _ => I32
  end.

(** Conversion of a value of type [from] to type [to] [conv.integral,
    conv.fpint, conv.double].  Integer to signed integer out of range is
    implementation-defined: modulo 2^width here. *)
Definition convert (c : cfg) (from to : sty) (z : Z) : res Z :=
  if sty_eqb from to then Ok z
  else if is_float from then
    if is_float to then
      Ok (encode to (nan_of c FCvt to z z) (sf_cvt to (decode from z)))
    else
      match sf_trunc (decode from z) with
      | Some i => if in_rangeb to i then Ok i else Err (EUB FloatCast)
      | None => Err (EUB FloatCast)
      end
  else if is_float to then Ok (encode to 0 (sf_of_Z to z))
  else Ok (wrap to z).

(** Result of an integer operation whose exact result is [z]. *)
Definition arith (c : cfg) (t : sty) (z : Z) : res Z :=
  if is_signed t then
    if in_rangeb t z then Ok z
    else if wrapv c then Ok (wrap t z)
    else Err (EUB SignedOverflow)
  else Ok (wrap t z).

Definition truth (t : sty) (z : Z) : bool :=
  if is_float t then sf_nonzero (decode t z) else negb (z =? 0).

Definition of_bool (b : bool) : obj := rv I32 (if b then 1 else 0).

Definition fbin (c : cfg) (o : fop) (t : sty) (x y : Z)
  (f : spec_float -> spec_float -> spec_float) : res obj :=
  Ok (rv t (encode t (nan_of c o t x y) (f (decode t x) (decode t y)))).

Definition shift_left (c : cfg) (t : sty) (x n : Z) : res Z :=
  if (0 <=? n) && (n <? width t) then
    if is_signed t then
      if wrapv c then Ok (wrap t (x * 2 ^ n))
      else if (0 <=? x) && (x * 2 ^ n <? modulus t) then Ok (wrap t (x * 2 ^ n))
      else Err (EUB BadShift)
    else Ok (wrap t (x * 2 ^ n))
  else Err (EUB BadShift).

Definition shift_right (t : sty) (x n : Z) : res Z :=
  if (0 <=? n) && (n <? width t) then Ok (Z.shiftr x n)
  else Err (EUB BadShift).

Definition compare_int (op : binop) (x y : Z) : bool :=
  match op with
  | BLt => x <? y | BGt => y <? x | BLe => x <=? y | BGe => y <=? x
  | BEq => x =? y | _ => negb (x =? y)
  end.

Definition compare_float (op : binop) (x y : spec_float) : bool :=
  match op with
  | BLt => SFltb x y | BGt => SFltb y x | BLe => SFleb x y | BGe => SFleb y x
  | BEq => SFeqb x y | _ => negb (SFeqb x y)
  end.

Definition binary (c : cfg) (op : binop) (t1 : sty) (x1 : Z) (t2 : sty) (x2 : Z)
  : res obj :=
  match op with
  | BShl | BShr =>
      if is_float t1 || is_float t2 then Err EStuck else
      let t := promote t1 in
      let* z := (match op with BShl => shift_left c t x1 x2
                             | _ => shift_right t x1 x2 end) in
      Ok (rv t z)
  | _ =>
      let t := usual t1 t2 in
      let* x := convert c t1 t x1 in
      let* y := convert c t2 t x2 in
      match op with
      | BAdd => if is_float t then fbin c FAdd t x y (fadd t)
                else let* z := arith c t (x + y) in Ok (rv t z)
      | BSub => if is_float t then fbin c FSub t x y (fsub t)
                else let* z := arith c t (x - y) in Ok (rv t z)
      | BMul => if is_float t then fbin c FMul t x y (fmul t)
                else let* z := arith c t (x * y) in Ok (rv t z)
      | BDiv => if is_float t then fbin c FDiv t x y (fdiv t)
                else if y =? 0 then Err (EUB DivByZero)
                else let* z := arith c t (Z.quot x y) in Ok (rv t z)
      | BRem => if is_float t then Err EStuck
                else if y =? 0 then Err (EUB DivByZero)
                else let* _ := arith c t (Z.quot x y) in Ok (rv t (Z.rem x y))
      | BAnd => if is_float t then Err EStuck else Ok (rv t (Z.land x y))
      | BOr => if is_float t then Err EStuck else Ok (rv t (Z.lor x y))
      | BXor => if is_float t then Err EStuck else Ok (rv t (Z.lxor x y))
      | _ => if is_float t then Ok (of_bool (compare_float op (decode t x) (decode t y)))
             else Ok (of_bool (compare_int op x y))
      end
  end.

Definition unary (c : cfg) (op : unop) (t : sty) (x : Z) : res obj :=
  match op with
  | UNot => if is_float t then Err EStuck
            else let t' := promote t in Ok (rv t' (wrap t' (Z.lnot x)))
  | UNeg => if is_float t then Err EStuck
            else let t' := promote t in
                 let* z := arith c t' (- x) in Ok (rv t' z)
  | ULNot => Ok (of_bool (negb (truth t x)))
  end.

(** std::min<t> / std::max<t> [alg.min.max]: [min(a,b)] is [b < a ? b : a],
    [max(a,b)] is [a < b ? b : a].  Integer [t] only. *)
Definition minmax (c : cfg) (mx : bool) (t : sty) (t1 : sty) (x1 : Z) (t2 : sty) (x2 : Z)
  : res obj :=
  if is_float t then Err EStuck else
  let* a := convert c t1 t x1 in
  let* b := convert c t2 t x2 in
  Ok (rv t (if mx then (if a <? b then b else a) else (if b <? a then b else a))).

(** ** Expressions *)

Definition index (m : memory) (o : obj) (i : Z) : res obj :=
  match o with
  | OArr l => get_idx l i
  | OPtr t b off => mem_read m t b (off + i)
  | OScal _ _ => Err EStuck
  end.

Definition int_value (o : obj) : res Z :=
  let* p := scalar o in
  if is_float (fst p) then Err EStuck else Ok (snd p).

Definition cond_value (o : obj) : res bool :=
  let* p := scalar o in Ok (truth (fst p) (snd p)).

Section Expr.
  Variable c : cfg.
  Variable callf : string -> obj -> res obj.

  Fixpoint eval (en : env) (m : memory) (e : expr) : res obj :=
    match e with
    | ELit t z => Ok (rv t z)
    | EVar x => match lookup x en with Some o => Ok o | None => Err EStuck end
    | EIdx a i =>
        let* o := eval en m a in
        let* oi := eval en m i in
        let* k := int_value oi in
        index m o k
    | EUn op a =>
        let* o := eval en m a in
        let* p := scalar o in unary c op (fst p) (snd p)
    | EBin op a b =>
        let* oa := eval en m a in
        let* pa := scalar oa in
        let* ob := eval en m b in
        let* pb := scalar ob in
        binary c op (fst pa) (snd pa) (fst pb) (snd pb)
    | EAndAlso a b =>
        let* oa := eval en m a in
        let* va := cond_value oa in
        if va then let* ob := eval en m b in
                   let* vb := cond_value ob in Ok (of_bool vb)
        else Ok (of_bool false)
    | EOrElse a b =>
        let* oa := eval en m a in
        let* va := cond_value oa in
        if va then Ok (of_bool true)
        else let* ob := eval en m b in
             let* vb := cond_value ob in Ok (of_bool vb)
    | ECond a b d =>
        (* both branches have the same type wherever ?: is used in the source
           (checked in Typing.v, library_type_checks), so no conversion *)
        let* oa := eval en m a in
        let* va := cond_value oa in
        if va then eval en m b else eval en m d
    | ECast t a =>
        let* o := eval en m a in
        let* p := scalar o in
        let* z := convert c (fst p) t (snd p) in Ok (rv t z)
    | EMin t a b =>
        let* oa := eval en m a in
        let* pa := scalar oa in
        let* ob := eval en m b in
        let* pb := scalar ob in
        minmax c false t (fst pa) (snd pa) (fst pb) (snd pb)
    | EMax t a b =>
        let* oa := eval en m a in
        let* pa := scalar oa in
        let* ob := eval en m b in
        let* pb := scalar ob in
        minmax c true t (fst pa) (snd pa) (fst pb) (snd pb)
    | ECall f a =>
        let* o := eval en m a in callf f o
    end.

  Fixpoint eval_path (en : env) (m : memory) (p : list expr) : res (list Z) :=
    match p with
    | [] => Ok []
    | e :: p' =>
        let* o := eval en m e in
        let* k := int_value o in
        let* ks := eval_path en m p' in Ok (k :: ks)
    end.
End Expr.

(** ** Assignment *)

(** Replace the scalar at [path] inside object [o] by the value [z] of type [t]. *)
Fixpoint put (c : cfg) (o : obj) (path : list Z) (t : sty) (z : Z) : res obj :=
  match path with
  | [] => match o with
          | OScal t' _ => let* z' := convert c t t' z in Ok (rv t' z')
          | _ => Err EStuck
          end
  | i :: path' =>
      match o with
      | OArr l =>
          let* x := get_idx l i in
          let* x' := put c x path' t z in
          Ok (OArr (set_nth (Z.to_nat i) x' l))
      | _ => Err EStuck
      end
  end.

Definition assign (c : cfg) (en : env) (m : memory) (x : string) (path : list Z)
  (v : obj) : res (env * memory) :=
  let* p := scalar v in
  match lookup x en with
  | None => Err EStuck
  | Some (OPtr t b off) =>
      match path with
      | [i] => let* z := convert c (fst p) t (snd p) in
               let* m' := mem_write m t b (off + i) z in Ok (en, m')
      | _ => Err EStuck
      end
  | Some o =>
      let* o' := put c o path (fst p) (snd p) in Ok (update x o' en, m)
  end.

(** ** memcpy between local objects: bytewise, little-endian *)

Fixpoint le_bytes (n : nat) (z : Z) : list Z :=
  match n with
  | O => []
  | S n' => z mod 256 :: le_bytes n' (z / 256)
  end.

Fixpoint of_le_bytes (l : list Z) : Z :=
  match l with
  | [] => 0
  | b :: l' => b + 256 * of_le_bytes l'
  end.

(** The object representation; [None] is an indeterminate byte.  Pointers are
    never copied this way in the source. *)
Fixpoint bytes_of (o : obj) : list (option Z) :=
  match o with
  | OScal t (Some z) => map Some (le_bytes (nbytes t) z)
  | OScal t None => repeat None (nbytes t)
  | OArr l => flat_map bytes_of l
  | OPtr _ _ _ => []
  end.

Fixpoint all_some {A} (l : list (option A)) : option (list A) :=
  match l with
  | [] => Some []
  | Some a :: l' => match all_some l' with Some r => Some (a :: r) | None => None end
  | None :: _ => None
  end.

(** Rebuild an object of the same shape as [o] from bytes; returns the rest. *)
Fixpoint from_bytes (o : obj) (bs : list (option Z)) {struct o}
  : obj * list (option Z) :=
  match o with
  | OScal t _ =>
      (OScal t (match all_some (firstn (nbytes t) bs) with
                | Some l => Some (wrap t (of_le_bytes l))
                | None => None
                end),
       skipn (nbytes t) bs)
  | OArr l =>
      let go := fix go (l : list obj) (bs : list (option Z)) :=
        match l with
        | [] => ([], bs)
        | o' :: l' =>
            let (x, bs1) := from_bytes o' bs in
            let (xs, bs2) := go l' bs1 in (x :: xs, bs2)
        end in
      let (xs, bs') := go l bs in (OArr xs, bs')
  | OPtr t b off => (o, bs)
  end.

(** memcpy of the first [n] bytes of [src] over [dst]. *)
Definition memcpy_obj (dst src : obj) (n : Z) : res obj :=
  let bd := bytes_of dst in
  let bs := bytes_of src in
  if (0 <=? n) && (n <=? Z.of_nat (List.length bd)) && (n <=? Z.of_nat (List.length bs))
  then let k := Z.to_nat n in
       Ok (fst (from_bytes dst (firstn k bs ++ skipn k bd)))
  else Err (EUB OutOfBounds).

(** ** Statements *)

Inductive ctl :=
| Normal (en : env) (m : memory)
| Returned (v : obj) (m : memory).

(** Leave a block: forget the variables declared in it. *)
Definition pop (n : nat) (en : env) : env := skipn (List.length en - n) en.

Definition pop_ctl (n : nat) (r : ctl) : ctl :=
  match r with
  | Normal en m => Normal (pop n en) m
  | Returned v m => Returned v m
  end.

Fixpoint loop (fuel : nat) (cond : env -> memory -> res bool)
  (step : env -> memory -> res ctl) (en : env) (m : memory) : res ctl :=
  match fuel with
  | O => Err ETimeout
  | S k =>
      let* b := cond en m in
      if b then
        let* r := step en m in
        match r with
        | Normal en' m' => loop k cond step en' m'
        | Returned _ _ => Ok r
        end
      else Ok (Normal en m)
  end.

Section Stmt.
  Variable c : cfg.
  Variable callf : string -> obj -> res obj.
  Variable fuel : nat.

  Definition init_obj (t : ty) (o : obj) : res obj :=
    match t with
    | TScal s => let* p := scalar o in
                 let* z := convert c (fst p) s (snd p) in Ok (rv s z)
    | _ => Ok o
    end.

  Fixpoint exec (s : stmt) (en : env) (m : memory) : res ctl :=
    match s with
    | SSkip => Ok (Normal en m)
    | SSeq s1 s2 =>
        let* r := exec s1 en m in
        match r with
        | Normal en' m' => exec s2 en' m'
        | Returned _ _ => Ok r
        end
    | SDecl t x None => Ok (Normal ((x, fresh t) :: en) m)
    | SDecl t x (Some e) =>
        let* o := eval c callf en m e in
        let* o' := init_obj t o in
        Ok (Normal ((x, o') :: en) m)
    | SAssign x path e =>
        let* ks := eval_path c callf en m path in
        let* v := eval c callf en m e in
        let* r := assign c en m x ks v in
        Ok (Normal (fst r) (snd r))
    | SIf e s1 s2 =>
        let* o := eval c callf en m e in
        let* b := cond_value o in
        let* r := (if b then exec s1 en m else exec s2 en m) in
        Ok (pop_ctl (List.length en) r)
    | SFor t i init cond next body =>
        let* o := eval c callf en m init in
        let* o' := init_obj (TScal t) o in
        let en0 := (i, o') :: en in
        let* r :=
          loop fuel
            (fun en m => let* o := eval c callf en m cond in cond_value o)
            (fun en m =>
               let* r := exec body en m in
               match pop_ctl (List.length en) r with
               | Normal en' m' =>
                   let* v := eval c callf en' m' next in
                   let* r := assign c en' m' i [] v in
                   Ok (Normal (fst r) (snd r))
               | Returned v m' => Ok (Returned v m')
               end)
            en0 m in
        Ok (pop_ctl (List.length en) r)
    | SMemcpy dst src n =>
        let* o := eval c callf en m n in
        let* k := int_value o in
        match lookup dst en, lookup src en with
        | Some od, Some os =>
            let* od' := memcpy_obj od os k in
            Ok (Normal (update dst od' en) m)
        | _, _ => Err EStuck
        end
    | SAbort => Err EAbort
    | SReturn e =>
        let* o := eval c callf en m e in Ok (Returned o m)
    end.

  (** Parameter passing: scalars are converted to the parameter's type. *)
  Fixpoint bind_params (ps : list (string * ty)) (args : list obj) : res env :=
    match ps, args with
    | [], [] => Ok []
    | (x, t) :: ps', a :: args' =>
        let* o := init_obj t a in
        let* en := bind_params ps' args' in Ok ((x, o) :: en)
    | _, _ => Err EStuck
    end.

  Definition run_body (f : func) (args : list obj) (m : memory) : res (option obj * memory) :=
    let* en := bind_params (f_params f) args in
    let* r := exec (f_body f) en m in
    match r, f_ret f with
    | Returned _ _, TVoid => Err EStuck
    | Returned v m', t => let* v' := init_obj t v in Ok (Some v', m')
    | Normal _ m', TVoid => Ok (None, m')
    | Normal _ _, _ => Err (EUB MissingReturn)
    end.
End Stmt.

(** Calls to the (one-argument, pointer-free) helper functions of [prog]. *)
Fixpoint call_helper (c : cfg) (prog : list func) (fuel : nat) (depth : nat)
  (name : string) (a : obj) : res obj :=
  match depth with
  | O => Err EStuck
  | S d =>
      match find (fun f => String.eqb (f_name f) name) prog with
      | None => Err EStuck
      | Some f =>
          let* r := run_body c (call_helper c prog fuel d) fuel f [a] [] in
          match fst r with Some v => Ok v | None => Err EStuck end
      end
  end.

(** ** The outcome of a call *)

Inductive outcome :=
| Returns (m : memory) (v : option obj)
| Aborts
| Undefined (k : ub)
| Timeout
| Stuck.

Definition outcome_of (r : res (option obj * memory)) : outcome :=
  match r with
  | Ok (v, m) => Returns m v
  | Err EAbort => Aborts
  | Err (EUB k) => Undefined k
  | Err ETimeout => Timeout
  | Err EStuck => Stuck
  end.
