(** A front end for tests/test_util.hpp: its text (UtilSource.v) to the functions of TestUtil.v.  Lexer, preprocessor and
    the parser of statements and expressions are those of Frontend.v; this file has what the library's source does not use.
    What is outside the fragment makes the answer [None] for the whole file.

    Simplifications (those of TestUtil.v): [bool] is int, with true 1 and false 0; a reference to a constant is a value; a
    [std::vector<T>] is a pointer to its elements; of what [std::cerr << .. ;] does only the conversions [(int)e] remain,
    as declarations of unused variables; a call of another overload inside [if (!almostEqual(e, a)) { return false; }] is
    replaced by the loop of that overload. *)
From Coq Require Import ZArith Ascii String List Bool.
From Verif Require Import Types Syntax Interp Frontend SourceH UtilSource.
Import ListNotations.
Open Scope Z_scope.
Local Open Scope string_scope.

(** The operands of [<<] up to the semicolon, and the rest (tests/test_util.hpp:24-25). *)
Fixpoint operands (ts : list token) : option (list (list token) * list token) :=
  match ts with
  | [] => None
  | t :: r =>
      if is_sym ";" ts then Some ([[]], r)
      else
        match operands r with
        | Some (o :: os, r') =>
            if is_sym "<<" ts then Some ([] :: o :: os, r') else Some ((t :: o) :: os, r')
        | _ => None
        end
  end.

(** The declarations that stand for the printing of the operands.  Nothing is left of a string, of a variable, or of
    [std::endl]; [names] are given to the conversions. *)
Fixpoint conversions (names : list string) (os : list (list token)) : option (list token) :=
  match os with
  | [] => Some []
  | [TStr] :: os' | [TId _] :: os' => conversions names os'
  | o :: os' =>
      if begins [K "std"; K "::"; K "endl"] o then
        match rest [K "std"; K "::"; K "endl"] o with [] => conversions names os' | _ => None end
      else if begins [K "("; K "int"; K ")"] o then
        match names with
        | x :: names' =>
            have d <- conversions names' os' ;
            Some ([TId "int"; TId x; TSym "="] ++ o ++ [TSym ";"] ++ d)%list
        | [] => None
        end
      else None
  end.

(** The tokens in the fragment of Frontend.v: [static], [&] of a parameter and [std::] of a function go. *)
Fixpoint rewrite (fuel : nat) (ts : list token) : option (list token) :=
  match fuel with
  | O => None
  | S n =>
      match ts with
      | [] => Some []
      | t :: r =>
          if begins [K "static"] ts then rewrite n r
          else if begins [K "true"] ts then push (TInt false 1) (rewrite n r)
          else if begins [K "false"] ts then push (TInt false 0) (rewrite n r)
          else if begins [K "std"; K "::"; K "fabs"] ts then
            push (TId "fabs") (rewrite n (rest [K "std"; K "::"; K "fabs"] ts))
          else if begins [K "std"; K "::"; K "vector"; K "<"; X; K ">"; K "&"] ts then
            let p := [K "std"; K "::"; K "vector"; K "<"; X; K ">"; K "&"] in
            push (TId (hd "" (idents p ts))) (push (TSym "*") (rewrite n (rest p ts)))
          else if begins [K "const"; X; K "&"; X] ts then
            push (TId (hd "" (idents [K "const"; X] ts))) (rewrite n (rest [K "const"; X; K "&"] ts))
          else if begins [K "std"; K "::"; K "cerr"; K "<<"] ts then
            match operands (rest [K "std"; K "::"; K "cerr"; K "<<"] ts) with
            | Some (os, r') =>
                have d <- conversions ["_a"; "_e"] os ;
                have l <- rewrite n r' ;
                Some (d ++ l)%list
            | None => None
            end
          else push t (rewrite n r)
      end
  end.

(** The overload for pairs (tests/test_util.hpp:92-102), from its body. *)
Definition pair_body : list pat :=
  [K "{"; K "for"; K "("; K "int"; X; K "="; N; K ";"; X; K "<"; N; K ";"; X; K "++"; K ")";
   K "{"; K "if"; K "("; K "!"; K "almostEqual"; K "("; X; K "."; K "val"; K "["; X; K "]"; K ",";
   X; K "."; K "val"; K "["; X; K "]"; K ")"; K ")"; K "{"; K "return"; N; K ";"; K "}"; K "}";
   K "return"; N; K ";"; K "}"].

(** [true] if all are the same name. *)
Definition same (xs : list string) : bool := forallb (String.eqb (hd "" xs)) xs.

Definition rename (x y : string) (t : token) : token :=
  match t with TId z => if (z =? x)%string then TId y else t | _ => t end.

(** The overloads seen so far: the type of the first parameter and the tokens of the body. *)
Definition overloads := list (ty * list token).
Definition ty_eq (a b : ty) : bool :=
  match a, b with
  | TArr n (TScal s), TArr m (TScal t) => Nat.eqb n m && sty_eqb s t
  | _, _ => false
  end.

(** The loop of the overload for elements of type [t], whose parameters [expected] and [actual] are [e] and [a], whose
    [eps] is the default argument 0 and whose variable is [j]. *)
Definition inlined (E : penv) (O : overloads) (t : ty) (e a : expr) : option stmt :=
  have p <- find (fun p => ty_eq t (fst p)) O ;
  let E' := mkenv (types E) [] [("expected", e); ("actual", a); ("eps", ELit F64 0)] [] in
  take (s, r) <- p_stmt sfuel E' "" (tl (map (rename "i" "j") (snd p))) ;
  match s, r with
  | [s], [TId x; TInt _ 1; TSym _; TSym _] => if (x =? "return")%string then Some s else None
  | _, _ => None
  end.

(** A body: that of pairs, or one Frontend.v can parse. *)
Definition p_overload (E : penv) (O : overloads) (ps : list (string * ty)) (ts : list token) : option stmt :=
  match starts pair_body ts with
  | Some ([i1; i2; i3; e; i4; a; i5], [lo; hi; f; t], []) =>
      match ps with
      | [(e', TArr _ te); (a', TArr _ _)] =>
          if same [i1; i2; i3; i4; i5] && (e =? e')%string && (a =? a')%string then
            if (f =? 0)%Z then
              have s <- inlined E O te (EIdx (EVar e) (EVar i1)) (EIdx (EVar a) (EVar i1)) ;
              Some (SSeq (SFor I32 i1 (ELit I32 lo) (EBin BLt (EVar i1) (ELit I32 hi))
                            (EBin BAdd (EVar i1) (ELit I32 1)) s)
                         (SReturn (ELit I32 t)))
            else None
          else None
      | _ => None
      end
  | _ =>
      take (b, r) <- p_body sfuel E ts ;
      match r with [] => Some (seq b) | _ => None end
  end.

(** The functions, one after the other. *)
Fixpoint p_overloads (fuel : nat) (E : penv) (O : overloads) (ts : list token) : option (list func) :=
  match fuel with
  | S n =>
      match ts with
      | [] => Some []
      | _ =>
          match starts [X; X; K "("] ts with
          | Some ([t; f], _, r) =>
              have ret <- type_of E t ;
              take (ps, r1) <- p_params 50 E r ;
              take (b, r2) <- block_tokens 0 r1 ;
              have s <- p_overload E O ps b ;
              have fs <- p_overloads n E ((snd (hd ("", TVoid) ps), b) :: O) r2 ;
              Some (mkfunc f ret ps s :: fs)
          | _ => None
          end
      end
  | O => None
  end.

(** tests/test_util.hpp, which includes neon_sim.h: the types are those of that header. *)
Definition util_front (h u : list string) : option (list func) :=
  have p <- preprocess (mkp ["__cplusplus"] []) 1 h ;
  have x <- p_items (S (length (snd p))) (mkenv scalar_types [] [] []) 0 (snd p) ;
  have q <- preprocess (mkp (fst p) []) 1 u ;
  have ts <- rewrite (S (length (snd q))) (map snd (snd q)) ;
  p_overloads 50 (mkenv (("bool", TScal I32) :: types (fst x)) [] [] []) [] ts.
