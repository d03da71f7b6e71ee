(** A front end for the fragment of C++ in which neon_sim.h and neon_sim.cpp are
    written: preprocessor, lexer and recursive-descent parser, as total Gallina
    functions.  P_Frontend.v proves that applied to the text of the two files
    (SourceH.v, SourceCpp.v) it gives exactly the declarations of Header.v and the
    syntax trees of Prog*.v.

    Whatever is outside the fragment makes the front end answer [None] for the
    whole file: nothing is skipped silently.  What is skipped by design is said
    beside each function: calls of fprintf, explicit declarations of member
    functions, default arguments, const. *)
From Coq Require Import ZArith Ascii String List Bool.
From Verif Require Import Types Syntax.
Import ListNotations.
Open Scope Z_scope.
Local Open Scope string_scope.

(** ** Tokens *)
Inductive token :=
| TId (s : string)             (* identifier or keyword *)
| TInt (hex : bool) (z : Z)    (* integer literal *)
| TFlt (z : Z)                 (* floating literal z.0 *)
| TChr (z : Z)                 (* character literal *)
| TStr                         (* string literal (only in extern "C" and fprintf) *)
| TSym (s : string).           (* punctuation *)

Definition code (a : ascii) : Z := Z.of_N (N_of_ascii a).
Definition between (lo hi : Z) (a : ascii) : bool := (lo <=? code a)%Z && (code a <=? hi)%Z.
Definition is_space (a : ascii) : bool := (code a =? 32)%Z || (code a =? 9)%Z.
Definition is_digit (a : ascii) : bool := between 48 57 a.
Definition is_alpha (a : ascii) : bool := between 65 90 a || between 97 122 a || (code a =? 95)%Z.
Definition is_alnum (a : ascii) : bool := is_alpha a || is_digit a.
Definition is_hex (a : ascii) : bool := is_digit a || between 65 70 a || between 97 102 a.
Definition digit_val (a : ascii) : Z :=
  if is_digit a then code a - 48 else if between 65 70 a then code a - 55 else code a - 87.

(** The longest prefix of characters satisfying [p], and the rest. *)
Fixpoint span (p : ascii -> bool) (s : string) : string * string :=
  match s with
  | EmptyString => (EmptyString, EmptyString)
  | String a r => if p a then let (x, y) := span p r in (String a x, y) else (EmptyString, s)
  end.

Fixpoint number (base acc : Z) (s : string) : Z :=
  match s with
  | EmptyString => acc
  | String a r => number base (acc * base + digit_val a) r
  end.

Fixpoint all_chars (p : ascii -> bool) (s : string) : bool :=
  match s with EmptyString => true | String a r => p a && all_chars p r end.

(** [drop k s]: without the first [k] characters. *)
Fixpoint drop (k : nat) (s : string) : string :=
  match k, s with S k', String _ r => drop k' r | _, _ => s end.

(** The text after the closing quote of a string literal. *)
Fixpoint after_quote (s : string) : option string :=
  match s with
  | EmptyString => None
  | String a r =>
      if (code a =? 34)%Z then Some r
      else if (code a =? 92)%Z then match r with String _ r' => after_quote r' | EmptyString => None end
      else after_quote r
  end.

Definition long_symbols : list string :=
  ["++"; "+="; "<<"; ">>"; "<="; ">="; "=="; "!="; "&&"; "||"; "::"].
Definition short_symbols : string := "-+*/%<>=!~&|^?:;,.(){}[]".
Fixpoint has_char (a : ascii) (s : string) : bool :=
  match s with EmptyString => false | String b r => Ascii.eqb a b || has_char a r end.

Definition push {A} (t : A) (o : option (list A)) : option (list A) :=
  match o with Some l => Some (t :: l) | None => None end.

(** One line to tokens; a comment runs to the end of the line. *)
Fixpoint lex (fuel : nat) (s : string) : option (list token) :=
  match fuel with
  | O => None
  | S fuel' =>
      match s with
      | EmptyString => Some []
      | String a r =>
          if is_space a then lex fuel' r
          else if prefix "//" s then Some []
          else if is_alpha a then
            let (w, r') := span is_alnum s in push (TId w) (lex fuel' r')
          else if prefix "0x" s || prefix "0X" s then
            let (w, r') := span is_hex (drop 2 s) in push (TInt true (number 16 0 w)) (lex fuel' r')
          else if is_digit a then
            let (w, r') := span is_digit s in
            match r' with
            | String d r'' =>
                if (code d =? 46)%Z then
                  let (w', r3) := span is_digit r'' in
                  if all_chars (fun x => (code x =? 48)%Z) w'
                  then push (TFlt (number 10 0 w)) (lex fuel' r3) else None
                else push (TInt false (number 10 0 w)) (lex fuel' r')
            | EmptyString => Some [TInt false (number 10 0 w)]
            end
          else if (code a =? 39)%Z then
            match r with
            | String ch (String q r') =>
                if (code q =? 39)%Z && negb (code ch =? 92)%Z
                then push (TChr (code ch)) (lex fuel' r') else None
            | _ => None
            end
          else if (code a =? 34)%Z then
            match after_quote r with Some r' => push TStr (lex fuel' r') | None => None end
          else
            let two := substring 0 2 s in
            if existsb (String.eqb two) long_symbols then push (TSym two) (lex fuel' (drop 2 s))
            else if has_char a short_symbols then push (TSym (String a EmptyString)) (lex fuel' r)
            else None
      end
  end.

Definition lex_line (s : string) : option (list token) := lex (S (String.length s)) s.

(** ** Preprocessor

    [#if X], [#ifdef X] (true iff [X] is defined), [#endif], [#define X ...]
    (recorded as defined: the only two macros of the header are defined as 1 and
    occur in [#if] only), [#include] and [#pragma] (nothing; the text of
    neon_sim.h is processed before that of neon_sim.cpp, which includes it first). *)
Record pstate := mkp { macros : list string; nesting : list bool }.

Definition directive (s : string) : string * string :=
  let (_, r) := span is_space s in
  let (w, r') := span is_alnum r in
  let (_, r'') := span is_space r' in
  (w, fst (span is_alnum r'')).

Definition member (x : string) (l : list string) : bool := existsb (String.eqb x) l.
Definition active (st : pstate) : bool := forallb (fun b => b) (nesting st).

(** One line: the new state and the tokens of the line. *)
Definition pp_line (st : pstate) (s : string) : option (pstate * list token) :=
  let (_, s') := span is_space s in
  match s' with
  | String a r =>
      if (code a =? 35)%Z then
        let (w, x) := directive r in
        if (w =? "if")%string || (w =? "ifdef")%string then
          Some (mkp (macros st) (member x (macros st) :: nesting st), [])
        else if (w =? "endif")%string then
          match nesting st with _ :: n => Some (mkp (macros st) n, []) | [] => None end
        else if (w =? "define")%string then
          Some (if active st then mkp (x :: macros st) (nesting st) else st, [])
        else if (w =? "include")%string || (w =? "pragma")%string then Some (st, [])
        else None
      else if active st then
        match lex_line s' with Some l => Some (st, l) | None => None end
      else Some (st, [])
  | EmptyString => Some (st, [])
  end.

(** A file: the macros defined at its end and its tokens, each with its line number. *)
Fixpoint preprocess (st : pstate) (line : Z) (ls : list string)
  : option (list string * list (Z * token)) :=
  match ls with
  | [] => match nesting st with [] => Some (macros st, []) | _ => None end
  | s :: ls' =>
      match pp_line st s with
      | Some (st', toks) =>
          match preprocess st' (line + 1) ls' with
          | Some (m, rest) => Some (m, (map (pair line) toks ++ rest)%list)
          | None => None
          end
      | None => None
      end
  end.

(** ** Declarations the parser needs *)

(** The scalar types of the language and of <stdint.h>. *)
Definition scalar_types : list (string * ty) :=
  [("int8_t", TScal I8); ("int16_t", TScal I16); ("int32_t", TScal I32); ("int64_t", TScal I64);
   ("uint8_t", TScal U8); ("uint16_t", TScal U16); ("uint32_t", TScal U32); ("uint64_t", TScal U64);
   ("char", TScal I8); ("short", TScal I16); ("int", TScal I32); ("size_t", TScal U64);
   ("float", TScal F32); ("double", TScal F64); ("void", TVoid)].

(** The limits of <stdint.h>, with the types C gives them. *)
Definition constants : list (string * expr) :=
  [("INT8_MIN", ELit I32 (-128)); ("INT8_MAX", ELit I32 127); ("UINT8_MAX", ELit I32 255);
   ("INT16_MIN", ELit I32 (-32768)); ("INT16_MAX", ELit I32 32767); ("UINT16_MAX", ELit I32 65535);
   ("INT32_MIN", ELit I32 (-2147483648)); ("INT32_MAX", ELit I32 2147483647);
   ("UINT32_MAX", ELit U32 4294967295);
   ("INT64_MIN", ELit I64 (-9223372036854775808)); ("INT64_MAX", ELit I64 9223372036854775807);
   ("UINT64_MAX", ELit U64 18446744073709551615)].

(** A class: its name, its data members in order (name, type, and for a
    [std::string] of fixed length the character that fills it), and its member
    functions: name, parameters and the tokens of the body. *)
Record class := mkclass {
  c_name : string;
  c_data : list (string * ty * option Z);
  c_funs : list (string * list (string * ty) * list token)
}.

(** Parser environment: types; the classes; and the identifiers that stand for
    something else than a variable of their own name: a data member inside a
    member function is a component of [this], and the parameters of an inlined
    member function are the variables that hold its arguments. *)
Record penv := mkenv {
  types : list (string * ty);
  classes : list class;
  alias : list (string * expr);
  methods : list (string * list (string * ty) * list token)
}.

Fixpoint assoc {A} (x : string) (l : list (string * A)) : option A :=
  match l with [] => None | (y, a) :: l' => if (x =? y)%string then Some a else assoc x l' end.

Definition class_type (k : class) : ty := TStruct (map (fun d => snd (fst d)) (c_data k)).

(** The type a name denotes. *)
Definition type_of (E : penv) (x : string) : option ty := assoc x (types E).
Definition scal_of (E : penv) (x : string) : option sty :=
  match type_of E x with Some (TScal t) => Some t | _ => None end.

Fixpoint position (x : string) (i : Z) (l : list (string * ty * option Z)) : option Z :=
  match l with
  | [] => None
  | (y, _, _) :: l' => if (x =? y)%string then Some i else position x (i + 1) l'
  end.

(** The index of data member [x] in the class that has one so called. *)
Fixpoint field (x : string) (ks : list class) : option Z :=
  match ks with
  | [] => None
  | k :: ks' => match position x 0 (c_data k) with Some i => Some i | None => field x ks' end
  end.

Fixpoint find_class (x : string) (ks : list class) : option class :=
  match ks with [] => None | k :: ks' => if (x =? c_name k)%string then Some k else find_class x ks' end.

Definition size_of (t : sty) : Z :=
  match t with I8 | U8 => 1 | I16 | U16 => 2 | I32 | U32 | F32 => 4 | I64 | U64 | F64 => 8 end.

(** The binary64 encoding of a positive integer below 2^53. *)
Definition double_bits (z : Z) : Z :=
  let e := Z.log2 z in (e + 1023) * 2 ^ 52 + (z * 2 ^ (52 - e) - 2 ^ 52).

(** The type of an integer literal without suffix. *)
Definition int_literal (hex : bool) (z : Z) : expr :=
  if (z <=? 2147483647)%Z then ELit I32 z
  else if hex && (z <=? 4294967295)%Z then ELit U32 z else ELit I64 z.

(** ** Parsing *)
Definition res (A : Type) := option (A * list token).

Notation "'take' ( x , r ) <- e ; k" := (match e with Some (x, r) => k | None => None end)
  (at level 100, x name, r name, e at level 99, k at level 100, right associativity).
Notation "'have' x <- e ; k" := (match e with Some x => k | None => None end)
  (at level 100, x name, e at level 99, k at level 100, right associativity).

Definition is_sym (s : string) (ts : list token) : bool :=
  match ts with TSym s' :: _ => (s =? s')%string | _ => false end.
(** The rest after the symbol or keyword [s]. *)
Definition eat (s : string) (ts : list token) : option (list token) :=
  match ts with
  | TSym s' :: r | TId s' :: r => if (s =? s')%string then Some r else None
  | _ => None
  end.
Definition skip_word (s : string) (ts : list token) : list token :=
  match eat s ts with Some r => r | None => ts end.

(** Patterns: a given symbol or keyword, any identifier, any number or character. *)
Inductive pat := K (s : string) | X | N | C.

(** If the tokens begin as the pattern says: the identifiers, the numbers and the rest. *)
Fixpoint starts (ps : list pat) (ts : list token) : option (list string * list Z * list token) :=
  match ps, ts with
  | [], _ => Some ([], [], ts)
  | K s :: ps', TSym s' :: r | K s :: ps', TId s' :: r =>
      if (s =? s')%string then starts ps' r else None
  | X :: ps', TId x :: r =>
      match starts ps' r with Some (xs, zs, r') => Some (x :: xs, zs, r') | None => None end
  | N :: ps', TInt _ z :: r | C :: ps', TChr z :: r =>
      match starts ps' r with Some (xs, zs, r') => Some (xs, z :: zs, r') | None => None end
  | _, _ => None
  end.
Definition begins (ps : list pat) (ts : list token) : bool :=
  match starts ps ts with Some _ => true | None => false end.
(** The parts, and the rest, when it is known that the tokens begin so. *)
Definition idents (ps : list pat) (ts : list token) : list string :=
  match starts ps ts with Some (xs, _, _) => xs | None => [] end.
Definition numbers (ps : list pat) (ts : list token) : list Z :=
  match starts ps ts with Some (_, zs, _) => zs | None => [] end.
Definition rest (ps : list pat) (ts : list token) : list token :=
  match starts ps ts with Some (_, _, r) => r | None => [] end.

(** Binary operators, loosest first; all are left associative. *)
Definition levels : list (list (string * (expr -> expr -> expr))) :=
  [ [("||", EOrElse)]; [("&&", EAndAlso)];
    [("|", EBin BOr)]; [("^", EBin BXor)]; [("&", EBin BAnd)];
    [("==", EBin BEq); ("!=", EBin BNe)];
    [("<", EBin BLt); (">", EBin BGt); ("<=", EBin BLe); (">=", EBin BGe)];
    [("<<", EBin BShl); (">>", EBin BShr)];
    [("+", EBin BAdd); ("-", EBin BSub)];
    [("*", EBin BMul); ("/", EBin BDiv); ("%", EBin BRem)] ].

Definition unaries : list (string * unop) := [("~", UNot); ("!", ULNot); ("-", UNeg)].

Section Parse.
Variable E : penv.

(** Expressions:
<<
expr    ::= binary [? expr : expr]
unary   ::= (~ | ! | -) unary | ( scalar-type ) unary | postfix
postfix ::= primary { [ expr ] | . val | . member }
primary ::= literal | constant | sizeof ( scalar-type ) | std::min[<t>](e, e) | std::max...
          | scalar-type ( e ) | f ( e ) | x | ( expr )
>>
    [.val] is dropped: a vector is its array (Syntax.v).  [std::min] without a type
    is at type int (its arguments are).  [T(e)] is the conversion of an object of
    class type by its operator T (a call of it; Typing.v checks its argument). *)
Fixpoint p_expr (fuel : nat) (ts : list token) : res expr :=
  match fuel with
  | O => None
  | S n =>
      take (c, r) <- p_binary n levels ts ;
      if is_sym "?" r then
        have r1 <- eat "?" r ;
        take (a, r2) <- p_expr n r1 ;
        have r3 <- eat ":" r2 ;
        take (b, r4) <- p_expr n r3 ;
        Some (ECond c a b, r4)
      else Some (c, r)
  end
with p_binary (fuel : nat) (lv : list (list (string * (expr -> expr -> expr)))) (ts : list token)
  : res expr :=
  match fuel with
  | O => None
  | S n =>
      match lv with
      | [] => p_unary n ts
      | ops :: lv' => take (a, r) <- p_binary n lv' ts ; p_chain n ops lv' a r
      end
  end
with p_chain (fuel : nat) (ops : list (string * (expr -> expr -> expr)))
  (lv : list (list (string * (expr -> expr -> expr)))) (a : expr) (ts : list token) : res expr :=
  match fuel with
  | O => None
  | S n =>
      match ts with
      | TSym s :: r =>
          match assoc s ops with
          | Some op => take (b, r') <- p_binary n lv r ; p_chain n ops lv (op a b) r'
          | None => Some (a, ts)
          end
      | _ => Some (a, ts)
      end
  end
with p_unary (fuel : nat) (ts : list token) : res expr :=
  match fuel with
  | O => None
  | S n =>
      match ts with
      | TSym s :: r =>
          match assoc s unaries with
          | Some op => take (a, r') <- p_unary n r ; Some (EUn op a, r')
          | None =>
              match scal_of E (hd "" (idents [K "("; X; K ")"] ts)) with
              | Some t => take (a, r') <- p_unary n (rest [K "("; X; K ")"] ts) ; Some (ECast t a, r')
              | None => p_postfix n ts
              end
          end
      | _ => p_postfix n ts
      end
  end
with p_postfix (fuel : nat) (ts : list token) : res expr :=
  match fuel with
  | O => None
  | S n => take (a, r) <- p_primary n ts ; p_suffix n a r
  end
with p_suffix (fuel : nat) (a : expr) (ts : list token) : res expr :=
  match fuel with
  | O => None
  | S n =>
      if begins [K "."; K "val"] ts then p_suffix n a (rest [K "."; K "val"] ts)
      else if begins [K "."; X] ts then
        have i <- field (hd "" (idents [K "."; X] ts)) (classes E) ;
        p_suffix n (EIdx a (ELit I32 i)) (rest [K "."; X] ts)
      else if is_sym "[" ts then
        have r <- eat "[" ts ;
        take (i, r1) <- p_expr n r ;
        have r2 <- eat "]" r1 ;
        p_suffix n (EIdx a i) r2
      else Some (a, ts)
  end
with p_primary (fuel : nat) (ts : list token) : res expr :=
  match fuel with
  | O => None
  | S n =>
      match ts with
      | TInt h z :: r => Some (int_literal h z, r)
      | TFlt z :: r => Some (ELit F64 (double_bits z), r)
      | TChr z :: r => Some (ELit I8 z, r)
      | TSym _ :: _ =>
          have r <- eat "(" ts ;
          take (e, r1) <- p_expr n r ; have r2 <- eat ")" r1 ; Some (e, r2)
      | TId x :: r =>
          if (x =? "sizeof")%string then
            let p := [K "sizeof"; K "("; X; K ")"] in
            have t <- scal_of E (hd "" (idents p ts)) ; Some (ELit U64 (size_of t), rest p ts)
          else if (x =? "std")%string then
            let p := [K "std"; K "::"; X] in
            have op <- assoc (hd "" (idents p ts)) [("min", EMin); ("max", EMax)] ;
            let r := rest p ts in
            take (t, r1) <-
              (if is_sym "<" r then
                 have t <- scal_of E (hd "" (idents [K "<"; X; K ">"] r)) ;
                 Some (t, rest [K "<"; X; K ">"] r)
               else Some (I32, r)) ;
            have r2 <- eat "(" r1 ;
            take (a, r3) <- p_expr n r2 ;
            have r4 <- eat "," r3 ;
            take (b, r5) <- p_expr n r4 ;
            have r6 <- eat ")" r5 ;
            Some (op t a b, r6)
          else
            match assoc x constants with
            | Some e => Some (e, r)
            | None =>
                if is_sym "(" r then
                  have r1 <- eat "(" r ;
                  take (a, r2) <- p_expr n r1 ;
                  have r3 <- eat ")" r2 ;
                  match type_of E x with
                  | Some _ =>
                      match classes E with
                      | [k] => Some (ECall (c_name k ++ "::operator " ++ x) a, r3)
                      | _ => None
                      end
                  | None => Some (ECall x a, r3)
                  end
                else match assoc x (alias E) with Some e => Some (e, r) | None => Some (EVar x, r) end
            end
      | _ => None
      end
  end.

(** The variable and the indices of an assignable expression. *)
Fixpoint lvalue (e : expr) (path : list expr) : option (string * list expr) :=
  match e with
  | EVar x => Some (x, path)
  | EIdx a i => lvalue a (i :: path)
  | _ => None
  end.

Fixpoint seq (l : list stmt) : stmt :=
  match l with [] => SSkip | [s] => s | s :: l' => SSeq s (seq l') end.

(** Tokens up to and including the next semicolon are dropped. *)
Fixpoint skip_statement (ts : list token) : option (list token) :=
  match ts with
  | [] => None
  | _ :: r => if is_sym ";" ts then Some r else skip_statement r
  end.

Fixpoint p_args (fuel k : nat) (ts : list token) : res (list expr) :=
  match fuel, k with
  | O, _ => None
  | _, O => Some ([], ts)
  | S n, S k' =>
      take (e, r) <- p_expr fuel ts ;
      match k' with
      | O => Some ([e], r)
      | _ => have r1 <- eat "," r ; take (es, r2) <- p_args n k' r1 ; Some (e :: es, r2)
      end
  end.
End Parse.

Definition no_alias (E : penv) (x : string) : option unit :=
  match assoc x (alias E) with None => Some tt | Some _ => None end.

(** One parameter of an inlined member function, its argument being [a]: a
    pointer stands for the array itself, any other parameter [p] is a new variable
    [p ++ k] initialised with the argument. *)
Definition bind_arg (k : string) (p : string * ty) (a : expr)
  : list stmt * (string * expr) :=
  match snd p with
  | TPtr _ => ([], (fst p, a))
  | t => let x := (fst p ++ k)%string in ([SDecl t x (Some a)], (fst p, EVar x))
  end.

Fixpoint bind_args (k : string) (ps : list (string * ty)) (es : list expr)
  : option (list stmt * list (string * expr)) :=
  match ps, es with
  | [], [] => Some ([], [])
  | p :: ps', e :: es' =>
      have r <- bind_args k ps' es' ;
      let (s, al) := bind_arg k p e in Some ((s ++ fst r)%list, al :: snd r)
  | _, _ => None
  end.

(** [T x;], [T x = e;] and [T x{e};] (constructor of a class). *)
Definition p_declaration (E : penv) (ts : list token) : res (list stmt) :=
  match ts with
  | TId t :: TId x :: r =>
      have ty <- type_of E t ;
      have _ok <- no_alias E x ;
      if is_sym ";" r then have r1 <- eat ";" r ; Some ([SDecl ty x None], r1)
      else if is_sym "=" r then
        have r1 <- eat "=" r ;
        take (e, r2) <- p_expr E 200 r1 ;
        have r3 <- eat ";" r2 ; Some ([SDecl ty x (Some e)], r3)
      else
        have r1 <- eat "{" r ;
        have c <- find_class t (classes E) ;
        take (e, r2) <- p_expr E 200 r1 ;
        have r3 <- eat "}" r2 ;
        have r4 <- eat ";" r3 ;
        Some ([SDecl ty x (Some (ECall (c_name c ++ "::" ++ c_name c) e))], r4)
  | _ => None
  end.

(** [x.val[i].. = e;] and [x.val[i].. += e;] *)
Definition p_assignment (E : penv) (ts : list token) : res (list stmt) :=
  take (a, r) <- p_postfix E 200 ts ;
  have xp <- lvalue a [] ;
  take (e, r1) <-
    (if is_sym "+=" r
     then have r <- eat "+=" r ; take (e, r') <- p_expr E 200 r ; Some (EBin BAdd a e, r')
     else have r <- eat "=" r ; p_expr E 200 r) ;
  have r2 <- eat ";" r1 ;
  Some ([SAssign (fst xp) (snd xp) e], r2).

(** Statements.  [k] is the string appended to the parameters of the next inlined
    member function.  A statement gives a list: none for an empty statement or a
    call of fprintf, several for an inlined call. *)
Fixpoint p_stmt (fuel : nat) (E : penv) (k : string) (ts : list token) : res (list stmt) :=
  match fuel with
  | O => None
  | S n =>
      if begins [K ";"] ts then Some ([], rest [K ";"] ts)
      else if begins [K "if"; K "("] ts then
        take (e, r2) <- p_expr E 200 (rest [K "if"; K "("] ts) ;
        have r3 <- eat ")" r2 ;
        take (a, r4) <- p_body n E r3 ;
        if begins [K "else"] r4 then
          take (b, r6) <- p_body n E (rest [K "else"] r4) ; Some ([SIf e (seq a) (seq b)], r6)
        else Some ([SIf e (seq a) SSkip], r4)
      else if begins [K "for"; K "("; X; X; K "="] ts then
        match starts [K "for"; K "("; X; X; K "="] ts with
        | Some ([t; i], _, r) =>
            have t <- scal_of E t ;
            have _ok <- no_alias E i ;
            take (init, r1) <- p_expr E 200 r ;
            have r2 <- eat ";" r1 ;
            take (cond, r3) <- p_expr E 200 r2 ;
            have r4 <- eat ";" r3 ;
            have r5 <- eat i r4 ;
            take (next, r6) <-
              (if is_sym "++" r5 then have r <- eat "++" r5 ; Some (ELit I32 1, r)
               else have r <- eat "+=" r5 ; p_expr E 200 r) ;
            have r7 <- eat ")" r6 ;
            take (b, r8) <- p_body n E r7 ;
            Some ([SFor t i init cond (EBin BAdd (EVar i) next) (seq b)], r8)
        | _ => None
        end
      else if begins [K "return"] ts then
        take (e, r1) <- p_expr E 200 (rest [K "return"] ts) ;
        have r2 <- eat ";" r1 ; Some ([SReturn e], r2)
      else if begins [K "fprintf"; K "("] ts then
        have r1 <- skip_statement ts ; Some ([], r1)
      else if begins [K "abort"; K "("; K ")"; K ";"] ts then
        Some ([SAbort], rest [K "abort"; K "("; K ")"; K ";"] ts)
      else if begins [K "memcpy"; K "("; K "&"] ts then
        take (d, r1) <- p_postfix E 200 (rest [K "memcpy"; K "("; K "&"] ts) ;
        have r2 <- eat "," r1 ;
        have r3 <- eat "&" r2 ;
        take (s, r4) <- p_postfix E 200 r3 ;
        have r5 <- eat "," r4 ;
        take (z, r6) <- p_expr E 200 r5 ;
        have r7 <- eat ")" r6 ;
        have r8 <- eat ";" r7 ;
        match d, s with EVar x, EVar y => Some ([SMemcpy x y z], r8) | _, _ => None end
      else if begins [X; X] (skip_word "const" ts) then p_declaration E (skip_word "const" ts)
      else if begins [X; K "("] ts then                               (* f(e, ..); *)
        have m <- assoc (hd "" (idents [X; K "("] ts))
                    (map (fun m => (fst (fst m), (snd (fst m), snd m))) (methods E)) ;
        take (es, r1) <- p_args E 200 (length (fst m)) (rest [X; K "("] ts) ;
        have r2 <- eat ")" r1 ;
        have r3 <- eat ";" r2 ;
        have b <- bind_args k (fst m) es ;
        take (body, left) <-
          p_body n (mkenv (types E) (classes E) (snd b ++ alias E) []) (snd m) ;
        match left with [] => Some ((fst b ++ body)%list, r3) | _ => None end
      else p_assignment E ts
  end
(** A block or a single statement. *)
with p_body (fuel : nat) (E : penv) (ts : list token) : res (list stmt) :=
  match fuel with
  | O => None
  | S n =>
      if begins [K "{"] ts then p_stmts n E ["1"; "2"; "3"] (rest [K "{"] ts)
      else p_stmt n E "1" ts
  end
(** Statements up to the closing brace; [ks]: names for the inlined calls to come. *)
with p_stmts (fuel : nat) (E : penv) (ks : list string) (ts : list token) : res (list stmt) :=
  match fuel with
  | O => None
  | S n =>
      if begins [K "}"] ts then Some ([], rest [K "}"] ts)
      else
        have k <- hd_error ks ;
        take (a, r) <- p_stmt n E k ts ;
        take (b, r') <-
          p_stmts n E (if existsb (fun m => begins [K (fst (fst m)); K "("] ts) (methods E)
                       then tl ks else ks) r ;
        Some ((a ++ b)%list, r')
  end.

(** Parameters: [T x], [T const* x], [const T* x], each with an optional name and an
    optional default value (dropped); up to and including the closing parenthesis. *)
Fixpoint p_params (fuel : nat) (E : penv) (ts : list token) : res (list (string * ty)) :=
  match fuel with
  | O => None
  | S n =>
      if begins [K ")"] ts then Some ([], rest [K ")"] ts)
      else
        match skip_word "const" ts with
        | TId t :: r =>
            have ty <- type_of E t ;
            let r := skip_word "const" r in
            take (ty, r) <-
              (if is_sym "*" r
               then match ty with TScal s => have r <- eat "*" r ; Some (TPtr s, r) | _ => None end
               else Some (ty, r)) ;
            let (x, r) := match r with TId x :: r' => (x, r') | _ => ("", r) end in
            let r := if begins [K "="; N] r then rest [K "="; N] r else r in
            if is_sym ")" r then have r' <- eat ")" r ; Some ([(x, ty)], r')
            else have r' <- eat "," r ; take (ps, r'') <- p_params n E r' ; Some ((x, ty) :: ps, r'')
        | _ => None
        end
  end.

(** The tokens of a block (braces included) and the rest. *)
Fixpoint block_tokens (depth : nat) (ts : list token) : res (list token) :=
  match ts with
  | [] => None
  | t :: r =>
      let d := if is_sym "{" ts then S depth else if is_sym "}" ts then pred depth else depth in
      match d with
      | O => Some ([t], r)
      | _ => take (b, r') <- block_tokens d r ; Some (t :: b, r')
      end
  end.

(** Members of a class, up to the closing brace.  [explicit ...;] declares a
    constructor or conversion defined outside; access control is ignored.
    Simplification: [std::string x = std::string(n, c)] is an array of [n] chars
    filled with [c]. *)
Definition string_member : list pat :=
  [K "std"; K "::"; K "string"; X; K "="; K "std"; K "::"; K "string"; K "("; N; K ","; C; K ")"; K ";"].
Definition plain_member : list pat := [X; X; K ";"].
Definition array_member : list pat := [X; X; K "["; N; K "]"; K ";"].
Definition function_member : list pat := [K "void"; X; K "("].

Fixpoint p_members (fuel : nat) (E : penv) (ts : list token)
  : res (list (string * ty * option Z) * list (string * list (string * ty) * list token)) :=
  match fuel with
  | O => None
  | S n =>
      if begins [K "}"] ts then Some (([], []), rest [K "}"] ts)
      else if begins [K "explicit"] ts then have r1 <- skip_statement ts ; p_members n E r1
      else if begins [K "private"; K ":"] ts then p_members n E (rest [K "private"; K ":"] ts)
      else if begins string_member ts then
        match starts string_member ts with
        | Some ([x], [z; c], r) =>
            take (m, r1) <- p_members n E r ;
            Some (((x, tvec I8 (Z.to_nat z), Some c) :: fst m, snd m), r1)
        | _ => None
        end
      else if begins function_member ts then
        take (ps, r1) <- p_params 50 E (rest function_member ts) ;
        take (b, r2) <- block_tokens 0 r1 ;
        take (m, r3) <- p_members n E r2 ;
        Some ((fst m, (hd "" (idents function_member ts), ps, b) :: snd m), r3)
      else if begins plain_member ts then
        match starts plain_member ts with
        | Some ([t; x], _, r) =>
            have ty <- type_of E t ;
            take (m, r1) <- p_members n E r ;
            Some (((x, ty, None) :: fst m, snd m), r1)
        | _ => None
        end
      else
        match starts array_member ts with
        | Some ([t; x], [z], r) =>
            have ty <- type_of E t ;
            take (m, r1) <- p_members n E r ;
            Some (((x, TArr (Z.to_nat z) ty, None) :: fst m, snd m), r1)
        | _ => None
        end
  end.

(** Inside a member function of [k], the name of a data member denotes the
    component of [this]. *)
Fixpoint member_aliases (i : Z) (l : list (string * ty * option Z)) : list (string * expr) :=
  match l with
  | [] => []
  | (x, _, _) :: l' => (x, EIdx (EVar "this") (ELit I32 i)) :: member_aliases (i + 1) l'
  end.

Definition inside (E : penv) (k : class) : penv :=
  mkenv (types E) (classes E) (member_aliases 0 (c_data k)) (c_funs k).

(** The default member initialisers, executed before the body of a constructor. *)
Fixpoint default_init (i : Z) (l : list (string * ty * option Z)) : list stmt :=
  match l with
  | [] => []
  | (_, TArr n _, Some c) :: l' =>
      SFor I32 "k" (ELit I32 0) (EBin BLt (EVar "k") (ELit I32 (Z.of_nat n)))
        (EBin BAdd (EVar "k") (ELit I32 1))
        (SAssign "this" [ELit I32 i; EVar "k"] (ELit I8 c)) :: default_init (i + 1) l'
  | _ :: l' => default_init (i + 1) l'
  end.

(** ** Files *)

(** What the text of a file declares and defines, in order.  A declaration keeps
    the number of the line it starts on. *)
Record file := mkfile {
  decls : list (string * ty * list ty * Z);
  defs : list func
}.

(** Statement fuel: the nesting and number of statements of one function. *)
Definition sfuel : nat := 100.

(** A definition or declaration at the head of [ts]:
    - [typedef T x;] and [typedef struct x { T val[n]; } x;] extend the types;
    - [struct x { ... };] is a class;
    - [x::x(T v) { ... }] and [x::operator T() const { ... }] define its constructor
      and conversion, as functions that return the object and that take it;
    - [T f(...);] and [T f(...) { ... }].
    ([extern "C" {] and its closing brace are dealt with by [p_items].) *)
Inductive item :=
| IEnv (E : penv)
| IDecl (d : string * ty * list ty)
| IDef (f : func).

Definition typedef_struct : list pat :=
  [K "typedef"; K "struct"; X; K "{"; X; K "val"; K "["; N; K "]"; K ";"; K "}"; X; K ";"].
Definition typedef_name : list pat := [K "typedef"; X; X; K ";"].
Definition class_head : list pat := [K "struct"; X; K "{"].
Definition operator_head : list pat :=
  [X; K "::"; K "operator"; X; K "("; K ")"; K "const"].
Definition constructor_head : list pat := [X; K "::"; X; K "("].
Definition function_head : list pat := [X; X; K "("].

Definition p_item (E : penv) (ts : list token) : res item :=
  if begins typedef_struct ts then
    match starts typedef_struct ts with
    | Some ([x; t; y], [z], r) =>
        have ty <- type_of E t ;
        if (x =? y)%string
        then Some (IEnv (mkenv ((x, TArr (Z.to_nat z) ty) :: types E) (classes E) [] []), r)
        else None
    | _ => None
    end
  else if begins typedef_name ts then
    match starts typedef_name ts with
    | Some ([t; x], _, r) =>
        have ty <- type_of E t ;
        Some (IEnv (mkenv ((x, ty) :: types E) (classes E) [] []), r)
    | _ => None
    end
  else if begins class_head ts then
    take (m, r1) <- p_members 50 E (rest class_head ts) ;
    have r2 <- eat ";" r1 ;
    let k := mkclass (hd "" (idents class_head ts)) (fst m) (snd m) in
    Some (IEnv (mkenv ((c_name k, class_type k) :: types E) (k :: classes E) [] []), r2)
  else if begins operator_head ts then
    match starts operator_head ts with
    | Some ([x; t], _, r) =>
        have k <- find_class x (classes E) ;
        have ty <- type_of E t ;
        take (b, r1) <- p_body sfuel (inside E k) r ;
        Some (IDef (mkfunc (x ++ "::operator " ++ t) ty [("this", class_type k)] (seq b)), r1)
    | _ => None
    end
  else if begins constructor_head ts then
    match starts constructor_head ts with
    | Some ([x; y], _, r) =>
        if (x =? y)%string then
          have k <- find_class x (classes E) ;
          take (ps, r1) <- p_params 50 E r ;
          take (b, r2) <- p_body sfuel (inside E k) r1 ;
          Some (IDef (mkfunc (x ++ "::" ++ x) (class_type k) ps
            (seq (SDecl (class_type k) "this" None :: default_init 0 (c_data k) ++ b
                  ++ [SReturn (EVar "this")])%list)), r2)
        else None
    | _ => None
    end
  else
    match starts function_head ts with
    | Some ([t; f], _, r) =>
        have ty <- type_of E t ;
        take (ps, r1) <- p_params 50 E r ;
        if begins [K ";"] r1 then Some (IDecl (f, ty, map snd ps), rest [K ";"] r1)
        else
          take (b, r2) <- p_body sfuel E r1 ;
          Some (IDef (mkfunc f ty ps (seq b)), r2)
    | _ => None
    end.

(** The tokens of the first item, with braces nested to [depth]: it ends with a
    semicolon outside braces, or (unless [semi]) with the closing brace of a body. *)
Fixpoint item_tokens (semi : bool) (depth : nat) (ts : list (Z * token))
  : option (list token * list (Z * token)) :=
  match ts with
  | [] => None
  | (_, t) :: r =>
      let d := if is_sym "{" [t] then S depth else if is_sym "}" [t] then pred depth else depth in
      match d with
      | O => if is_sym ";" [t] || (is_sym "}" [t] && negb semi) then Some ([t], r)
             else take (b, r') <- item_tokens semi d r ; Some (t :: b, r')
      | _ => take (b, r') <- item_tokens semi d r ; Some (t :: b, r')
      end
  end.

(** A whole file: the items from the tokens with their line numbers; [open] counts
    the linkage blocks that are open. *)
Fixpoint p_items (fuel : nat) (E : penv) (open : nat) (ts : list (Z * token))
  : option (penv * file) :=
  match fuel with
  | O => None
  | S n =>
      match ts with
      | [] => match open with O => Some (E, mkfile [] []) | _ => None end
      | (_, TId x) :: (_, TStr) :: (_, b) :: r =>
          if (x =? "extern")%string && is_sym "{" [b] then p_items n E (S open) r else None
      | (line, t) :: r =>
          if is_sym "}" [t] then match open with S o => p_items n E o r | O => None end
          else
            take (it, r) <-
              item_tokens (begins [K "typedef"] [t] || begins [K "struct"] [t]) 0 ts ;
            match p_item E it with
            | Some (IEnv E', []) => p_items n E' open r
            | Some (IDecl (f, t, ps), []) =>
                take (E', F) <- p_items n E open r ;
                Some (E', mkfile ((f, t, ps, line) :: decls F) (defs F))
            | Some (IDef d, []) =>
                take (E', F) <- p_items n E open r ;
                Some (E', mkfile (decls F) (d :: defs F))
            | _ => None
            end
      end
  end.

(** The translation unit: neon_sim.cpp, whose first line includes neon_sim.h.  The
    macro [__cplusplus] is predefined; [__fp16] and whatever else the compiler
    predefines is not (simplification: the target has no half-precision type). *)
Definition front_end (h cpp : list string) : option (file * file) :=
  have p <- preprocess (mkp ["__cplusplus"] []) 1 h ;
  have q <- preprocess (mkp (fst p) []) 1 cpp ;
  have x <- p_items (S (length (snd p))) (mkenv scalar_types [] [] []) 0 (snd p) ;
  have y <- p_items (S (length (snd q))) (fst x) 0 (snd q) ;
  Some (snd x, snd y).
