(** The diagnostics of neon_sim.cpp: what a call prints before it aborts.

    Frontend.v drops the calls of fprintf; here they are read from the same tokens.  Every call of
    [abort] in the file must be the statement after one of

      fprintf(stderr, "text", __FUNCTION__);      fprintf(stderr, "text");

    and every call of fprintf the statement before one of [abort] (neon_sim.cpp:666, 690, 714, 3603,
    3758 ... 5925); otherwise there is no result.  So a call prints its diagnostic exactly if it
    aborts. *)
From Coq Require Import ZArith String Ascii List Bool.
From Verif Require Import Syntax Frontend.
Import ListNotations.
Open Scope Z_scope.
Local Open Scope string_scope.

(** The string literal of a line: the text between its first two quotes. *)
Definition is_quote (a : ascii) : bool := (code a =? 34)%Z.
Definition literal (s : string) : option string :=
  match snd (span (fun a => negb (is_quote a)) s) with
  | String _ r => match span (fun a => negb (is_quote a)) r with (t, String _ _) => Some t | _ => None end
  | EmptyString => None
  end.

Definition to_stderr : list pat := [K "fprintf"; K "("; K "stderr"; K ","].
Definition with_name : list pat := [K ","; K "__FUNCTION__"; K ")"; K ";"; K "abort"; K "("; K ")"; K ";"].
Definition without_name : list pat := [K ")"; K ";"; K "abort"; K "("; K ")"; K ";"].

(** The function, the text and whether the name of the function is an argument, for each diagnostic.
    [depth] counts open braces; outside braces, an identifier before a parenthesis is the name of the
    function that is being defined.  [skip] tokens have been dealt with. *)
Fixpoint scan (lines : list string) (skip depth : nat) (cur : string) (ts : list (Z * token))
  : option (list (string * string * bool)) :=
  match ts with
  | [] => Some []
  | (l, t) :: r =>
      match skip with
      | S k => scan lines k depth cur r
      | O =>
          if is_sym "{" [t] then scan lines 0 (S depth) cur r
          else if is_sym "}" [t] then scan lines 0 (pred depth) cur r
          else
            match t with
            | TId x =>
                if (x =? "fprintf")%string then
                  let after := map snd (firstn 20 ts) in
                  if begins to_stderr after then
                    match rest to_stderr after with
                    | TStr :: a =>
                        match literal (nth (Z.to_nat (l - 1)) lines "") with
                        | Some s =>
                            if begins with_name a then push (cur, s, true) (scan lines 12 depth cur r)
                            else if begins without_name a then push (cur, s, false) (scan lines 10 depth cur r)
                            else None
                        | None => None
                        end
                    | _ => None
                    end
                  else None
                else if (x =? "abort")%string then None
                else
                  match depth, r with
                  | O, (_, p) :: _ => scan lines 0 depth (if is_sym "(" [p] then x else cur) r
                  | _, _ => scan lines 0 depth cur r
                  end
            | _ => scan lines 0 depth cur r
            end
      end
  end.

(** What fprintf prints: %s is the name of the function, \n the end of the line. *)
Fixpoint formatted (name s : string) : string :=
  match s with
  | String a r =>
      match r with
      | String b r' =>
          if ((code a =? 37) && (code b =? 115))%Z then name ++ formatted name r'
          else if ((code a =? 92) && (code b =? 110))%Z then String (ascii_of_nat 10) (formatted name r')
          else String a (formatted name r)
      | EmptyString => s
      end
  | EmptyString => s
  end.

(** Every function with a diagnostic, and the text it prints. *)
Definition diagnostics (h cpp : list string) : option (list (string * string)) :=
  have p <- preprocess (mkp ["__cplusplus"] []) 1 h ;
  have q <- preprocess (mkp (fst p) []) 1 cpp ;
  have l <- scan cpp 0 0 "" (snd q) ;
  if forallb (fun d => snd d || negb (has_char (ascii_of_nat 37) (snd (fst d)))) l
  then Some (map (fun d => (fst (fst d), formatted (fst (fst d)) (snd (fst d)))) l)
  else None.
