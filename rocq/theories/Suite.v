(** The project's test program: the tests themselves (tests/test_*.cpp, whose text is in SuiteSource.v).  A lexer and a
    parser for the fragment of C++ the tests are written in, and what a test does: it calls the library, compares with
    almostEqual (TestUtil.v) or with EXPECT_EQ, and tells the runner (Runner.v).  What is outside the fragment makes the
    parser answer [None] for the whole program. *)
From Coq Require Import ZArith Ascii String List Bool.
From Verif Require Import Types FloatBits Syntax Interp ProgRecip TestUtil SuiteSource.
From Verif Require Frontend Runner.
Import ListNotations.
Open Scope Z_scope.
Local Open Scope string_scope.

(** ** Tokens *)

(** A number is written with [k] digits after the point, if there is one; without the point it is [m]. *)
Inductive token := WId (s : string) | WNum (m : Z) (k : option nat) | WSym (s : string).

(** One line to tokens, as [Frontend.lex], but with decimal fractions, and without characters, strings and hexadecimal
    numbers. *)
Fixpoint lex (fuel : nat) (s : string) : option (list token) :=
  match fuel with
  | O => None
  | S fuel' =>
      match s with
      | EmptyString => Some []
      | String a r =>
          if Frontend.is_space a then lex fuel' r
          else if prefix "//" s then Some []
          else if Frontend.is_alpha a then let (w, r') := Frontend.span Frontend.is_alnum s in Frontend.push (WId w) (lex fuel' r')
          else if Frontend.is_digit a then
            let (w, r') := Frontend.span Frontend.is_digit s in
            match r' with
            | String d r'' =>
                if (Frontend.code d =? 46)%Z then
                  let (w', r3) := Frontend.span Frontend.is_digit r'' in
                  Frontend.push (WNum (Frontend.number 10 0 (w ++ w')) (Some (String.length w'))) (lex fuel' r3)
                else if Frontend.is_alpha d then None
                else Frontend.push (WNum (Frontend.number 10 0 w) None) (lex fuel' r')
            | EmptyString => Some [WNum (Frontend.number 10 0 w) None]
            end
          else if prefix "::" s then Frontend.push (WSym "::") (lex fuel' (Frontend.drop 2 s))
          else if Frontend.has_char a "-<>=&;,.(){}[]" then Frontend.push (WSym (String a EmptyString)) (lex fuel' r)
          else None
      end
  end.

(** A file: the only preprocessor lines are #include. *)
Fixpoint tokens (ls : list string) : option (list token) :=
  match ls with
  | [] => Some []
  | s :: ls' =>
      if prefix "#include" s then tokens ls'
      else match lex (S (String.length s)) s, tokens ls' with Some a, Some b => Some (a ++ b)%list | _, _ => None end
  end.

(** ** Syntax *)

Inductive texpr :=
| XVar (x : string)
| XNum (m : Z) (k : option nat)          (* a number, m / 10^k; also negative *)
| XCall (f : string) (args : list texpr)
| XVal (x : string) (i : Z)              (* x.val[i] *)
| XAddr (x : string)                     (* &x *)
| XData (x : string).                    (* x.data() *)

Inductive tstmt :=
| TDecl (t x : string)                                    (* t x; *)
| TList (t x : string) (l : list texpr)                   (* t x = { l }; *)
| TInit (t x : string) (e : texpr)                        (* t x = e; *)
| TArray (t x : string) (n : option Z) (l : list texpr)   (* t x[n] = { l }; *)
| TVector (x : string) (l : list texpr)                   (* std::vector<float> x = { l }; *)
| TZeros (x : string) (n : Z)                             (* std::vector<float> x(n); *)
| TVal (x : string) (i : Z) (t : string) (l : list texpr) (* x.val[i] = t{ l }; *)
| TDo (e : texpr)                                         (* e; *)
| TAlmost (e a : texpr)                                   (* EXPECT_TRUE(almostEqual(e, a)); *)
| TEqual (e a : texpr)                                    (* EXPECT_EQ(e, a); *)
| TBlock (l : list tstmt).                                (* { l } *)

(** ** Parser *)

Definition res (A : Type) := option (A * list token).
Notation "'take' ( x , r ) <- e ; k" := (match e with Some (x, r) => k | None => None end)
  (at level 100, x name, r name, e at level 99, k at level 100, right associativity).
Notation "'have' x <- e ; k" := (match e with Some x => k | None => None end)
  (at level 100, x name, e at level 99, k at level 100, right associativity).

(** The rest after the given symbols and keywords. *)
Fixpoint eat (l : list string) (ts : list token) : option (list token) :=
  match l, ts with
  | [], _ => Some ts
  | s :: l', WSym s' :: ts' | s :: l', WId s' :: ts' => if (s =? s')%string then eat l' ts' else None
  | _, _ => None
  end.

Fixpoint p_expr (fuel : nat) (ts : list token) : res texpr :=
  match fuel with
  | O => None
  | S fuel' =>
      (* the rest of a list that is ended by the symbol [e] *)
      let fix p_list (n : nat) (e : string) (ts : list token) : res (list texpr) :=
        match n with
        | O => None
        | S n' =>
            take (x, r) <- p_expr fuel' ts;
            match eat [e] r with
            | Some r' => Some ([x], r')
            | None => have r' <- eat [","] r; take (l, r'') <- p_list n' e r'; Some (x :: l, r'')
            end
        end in
      match ts with
      | WNum m k :: r => Some (XNum m k, r)
      | WSym "-" :: WNum m k :: r => Some (XNum (- m) k, r)
      | WSym "&" :: WId x :: r => Some (XAddr x, r)
      | WId f :: WSym "(" :: r => take (l, r') <- p_list fuel' ")" r; Some (XCall f l, r')
      | WId x :: WSym "." :: WId "val" :: WSym "[" :: WNum i None :: WSym "]" :: r => Some (XVal x i, r)
      | WId x :: WSym "." :: WId "data" :: WSym "(" :: WSym ")" :: r => Some (XData x, r)
      | WId x :: r => Some (XVar x, r)
      | _ => None
      end
  end.

(** The initialisers between braces. *)
Fixpoint p_braces (fuel : nat) (ts : list token) : res (list texpr) :=
  match fuel with
  | O => None
  | S fuel' =>
      take (x, r) <- p_expr fuel' ts;
      match eat ["}"] r with
      | Some r' => Some ([x], r')
      | None => have r' <- eat [","] r; take (l, r'') <- p_braces fuel' r'; Some (x :: l, r'')
      end
  end.

Definition vector_of_float : list string := ["std"; "::"; "vector"; "<"; "float"; ">"].

Definition p_simple (fuel : nat) (ts : list token) : res tstmt :=
  match eat ["EXPECT_TRUE"; "("; "almostEqual"; "("] ts with
  | Some r => take (e, r1) <- p_expr fuel r; have r2 <- eat [","] r1; take (a, r3) <- p_expr fuel r2;
              have r4 <- eat [")"; ")"; ";"] r3; Some (TAlmost e a, r4)
  | None =>
  match eat ["EXPECT_EQ"; "("] ts with
  | Some r => take (e, r1) <- p_expr fuel r; have r2 <- eat [","] r1; take (a, r3) <- p_expr fuel r2;
              have r4 <- eat [")"; ";"] r3; Some (TEqual e a, r4)
  | None =>
  match eat vector_of_float ts with
  | Some (WId x :: WSym "=" :: WSym "{" :: r) => take (l, r1) <- p_braces fuel r; have r2 <- eat [";"] r1; Some (TVector x l, r2)
  | Some (WId x :: WSym "(" :: WNum n None :: WSym ")" :: WSym ";" :: r) => Some (TZeros x n, r)
  | Some _ => None
  | None =>
  match ts with
  | WId t :: WId x :: WSym ";" :: r => Some (TDecl t x, r)
  | WId t :: WId x :: WSym "=" :: WSym "{" :: r => take (l, r1) <- p_braces fuel r; have r2 <- eat [";"] r1; Some (TList t x l, r2)
  | WId t :: WId x :: WSym "=" :: r => take (e, r1) <- p_expr fuel r; have r2 <- eat [";"] r1; Some (TInit t x e, r2)
  | WId t :: WId x :: WSym "[" :: WNum n None :: WSym "]" :: WSym "=" :: WSym "{" :: r =>
      take (l, r1) <- p_braces fuel r; have r2 <- eat [";"] r1; Some (TArray t x (Some n) l, r2)
  | WId t :: WId x :: WSym "[" :: WSym "]" :: WSym "=" :: WSym "{" :: r =>
      take (l, r1) <- p_braces fuel r; have r2 <- eat [";"] r1; Some (TArray t x None l, r2)
  | WId x :: WSym "." :: WId "val" :: WSym "[" :: WNum i None :: WSym "]" :: WSym "=" :: WId t :: WSym "{" :: r =>
      take (l, r1) <- p_braces fuel r; have r2 <- eat [";"] r1; Some (TVal x i t l, r2)
  | _ => take (e, r1) <- p_expr fuel ts; have r2 <- eat [";"] r1; Some (TDo e, r2)
  end end end end.

(** The statements up to the closing brace. *)
Fixpoint p_stmts (fuel : nat) (ts : list token) : res (list tstmt) :=
  match fuel with
  | O => None
  | S fuel' =>
      match ts with
      | WSym "}" :: r => Some ([], r)
      | WSym "{" :: r => take (b, r1) <- p_stmts fuel' r; take (l, r2) <- p_stmts fuel' r1; Some (TBlock b :: l, r2)
      | _ => take (s, r1) <- p_simple fuel ts; take (l, r2) <- p_stmts fuel' r1; Some (s :: l, r2)
      end
  end.

(** TEST(set, name) { ... } is a test called "set.name" (test_util.hpp:5, utest.h:912-937); UTEST_MAIN() is the function
    main (utest.h:1427-1431). *)
Fixpoint p_tests (fuel : nat) (ts : list token) : option (list (string * list tstmt)) :=
  match fuel with
  | O => None
  | S fuel' =>
      match ts with
      | [] => Some []
      | WId "TEST" :: WSym "(" :: WId s :: WSym "," :: WId n :: WSym ")" :: WSym "{" :: r =>
          take (b, r1) <- p_stmts (List.length r) r; have l <- p_tests fuel' r1; Some ((s ++ "." ++ n, b) :: l)
      | WId "UTEST_MAIN" :: WSym "(" :: WSym ")" :: r => p_tests fuel' r
      | _ => None
      end
  end.

Fixpoint p_files (fs : list (string * list string)) : option (list (string * list tstmt)) :=
  match fs with
  | [] => Some []
  | (_, ls) :: fs' =>
      have ts <- tokens ls; have a <- p_tests (S (List.length ts)) ts; have b <- p_files fs'; Some (a ++ b)%list
  end.

(** The tests of the project, in the order of the files (CMakeLists.txt:13: file(GLOB_RECURSE)). *)
Definition suite : list (string * list tstmt) := match p_files test_sources with Some l => l | None => [] end.

(** ** What a test does *)

(** The types the tests use: neon_sim.h:12-330. *)
Definition type_named : list (string * ty) :=
  [("int8x8_t", tvec I8 8); ("uint8x8_t", tvec U8 8); ("int16x4_t", tvec I16 4); ("float32x2_t", tvec F32 2);
   ("int8x16_t", tvec I8 16); ("int16x8_t", tvec I16 8); ("uint16x8_t", tvec U16 8); ("uint32x4_t", tvec U32 4); ("float32x4_t", tvec F32 4);
   ("uint8x8x2_t", tvecs 2 U8 8); ("float32x4x4_t", tvecs 4 F32 4);
   ("float", TScal F32); ("float32_t", TScal F32); ("int16_t", TScal I16); ("uint8_t", TScal U8)].

(** Two of these types are the same. *)
Fixpoint same (a b : ty) : bool :=
  match a, b with
  | TScal s, TScal t => sty_eqb s t
  | TArr n s, TArr k t => (n =? k)%nat && same s t
  | _, _ => false
  end.

(** What a variable is: an object, or an array or std::vector, which lives in a block of the memory. *)
Inductive variable := VObj (t : ty) (o : obj) | VMem (vector : bool) (t : sty) (b : nat).

(** Steps: a result; or the process is ended by abort; or the test is outside of what C++ defines or this model covers. *)
Inductive step (A : Type) := Done (a : A) | Died | Wrong.
Arguments Done {A}. Arguments Died {A}. Arguments Wrong {A}.
Definition next {A B} (s : step A) (f : A -> step B) : step B := match s with Done a => f a | Died => Died | Wrong => Wrong end.
Notation "'do' x <- s ; k" := (next s (fun x => k)) (at level 100, x pattern, s at level 99, k at level 100, right associativity).
Definition some {A} (o : option A) : step A := match o with Some a => Done a | None => Wrong end.
Definition ok {A} (r : Interp.res A) : step A := match r with Ok a => Done a | Err EAbort => Died | Err _ => Wrong end.

(** The number as a constant of type [t].  A literal with a point is a double, correctly rounded: the quotient of two
    doubles that are exact; then it is converted.  An integer must be in range. *)
Definition constant (c : cfg) (t : sty) (m : Z) (k : option nat) : step obj :=
  match k with
  | None => if is_float t then (do z <- ok (convert c I32 t m); Done (rv t z)) else if in_rangeb t m then Done (rv t m) else Wrong
  | Some k =>
      let p := 10 ^ Z.of_nat k in
      if is_float t && (Z.abs m <? 2 ^ 53)%Z && (p <? 2 ^ 53)%Z then
        do z <- ok (convert c F64 t (encode F64 0 (fdiv F64 (sf_of_Z F64 m) (sf_of_Z F64 p)))); Done (rv t z)
      else Wrong
  end.

Section Semantics.
(** How the compiler treats floating point and overflow, and the library the test is linked with. *)
Variable c : cfg.
Variable lib : string -> option func.

Definition vars : Type := list (string * variable).

(** The value of an expression as an object of type [want], and the memory after it.  &x: x has no other name while it is
    used, so a copy of it is pointed to.  The arguments are evaluated from left to right (C68: no matter). *)
Fixpoint value_of (fuel : nat) (en : vars) (m : memory) (want : ty) (e : texpr) : step (obj * memory) :=
  match fuel with
  | O => Wrong
  | S fuel' =>
      let fix values (ps : list (string * ty)) (m : memory) (l : list texpr) : step (list obj * memory) :=
        match ps, l with
        | [], [] => Done ([], m)
        | (_, t) :: ps', a :: l' => do (o, m1) <- value_of fuel' en m t a; do (os, m2) <- values ps' m1 l'; Done (o :: os, m2)
        | _, _ => Wrong
        end in
      match e with
      | XNum n k => match want with TScal t => do o <- constant c t n k; Done (o, m) | _ => Wrong end
      | XVar x =>
          do v <- some (Frontend.assoc x en);
          match v, want with
          | VObj t o, _ => if same t want then Done (o, m) else Wrong
          | VMem _ t b, TPtr s => if sty_eqb s t then Done (OPtr t b 0, m) else Wrong
          | _, _ => Wrong
          end
      | XVal x i =>
          do v <- some (Frontend.assoc x en);
          match v with
          | VObj (TArr n t) (OArr l) =>
              if same t want && (0 <=? i)%Z && (i <? Z.of_nat n)%Z then do o <- some (nth_error l (Z.to_nat i)); Done (o, m) else Wrong
          | _ => Wrong
          end
      | XAddr x =>
          do v <- some (Frontend.assoc x en);
          match v, want with
          | VObj (TScal t) (OScal _ z), TPtr s => if sty_eqb s t then Done (OPtr t (List.length m) 0, m ++ [(t, [z])])%list else Wrong
          | _, _ => Wrong
          end
      | XData x =>
          do v <- some (Frontend.assoc x en);
          match v, want with
          | VMem true t b, TPtr s => if sty_eqb s t then Done (OPtr t b 0, m) else Wrong
          | _, _ => Wrong
          end
      | XCall f args =>
          do fn <- some (lib f);
          if same (f_ret fn) want || match f_ret fn, want with TVoid, TVoid => true | _, _ => false end then
            do (os, m1) <- values (f_params fn) m args;
            match run c m1 fn os with
            | Returns m2 v => match v, want with
                              | Some o, _ => Done (o, m2)
                              | None, TVoid => Done (OArr [], m2)
                              | _, _ => Wrong
                              end
            | Aborts => Died
            | _ => Wrong
            end
          else Wrong
      end
  end.

Definition depth : nat := 8.
Definition value := value_of depth.

(** { l } as [n] elements of type [t]; those left out are 0. *)
Fixpoint elements (en : vars) (m : memory) (t : sty) (n : nat) (l : list texpr) : step (list obj) :=
  match n, l with
  | O, [] => Done []
  | S n', e :: l' => do (o, _) <- value en m (TScal t) e; do os <- elements en m t n' l'; Done (o :: os)
  | S n', [] => do os <- elements en m t n' []; Done (rv t 0 :: os)
  | O, _ :: _ => Wrong
  end.
(** { l } as [n] vectors of type [t]: none is left out. *)
Fixpoint parts (en : vars) (m : memory) (t : ty) (n : nat) (l : list texpr) : step (list obj) :=
  match n, l with
  | O, [] => Done []
  | S n', e :: l' => do (o, _) <- value en m t e; do os <- parts en m t n' l'; Done (o :: os)
  | _, _ => Wrong
  end.
Definition aggregate (en : vars) (m : memory) (t : ty) (l : list texpr) : step obj :=
  match t with
  | TArr n (TScal s) => do os <- elements en m s n l; Done (OArr os)
  | TArr n t' => do os <- parts en m t' n l; Done (OArr os)
  | _ => Wrong
  end.

(** The contents of objects as contents of a block. *)
Definition cell (o : obj) : option Z := match o with OScal _ z => z | _ => None end.

(** The overload of almostEqual for two variables: test_util.hpp:17-147. *)
Definition overloads : list (ty * func) :=
  [(tvec U8 8, almostEqual_uint8x8); (tvec I8 8, almostEqual_int8x8); (tvec U16 8, almostEqual_uint16x8); (tvec I16 8, almostEqual_int16x8);
   (tvec I8 16, almostEqual_int8x16); (tvecs 2 U8 8, almostEqual_uint8x8x2); (tvec F32 4, almostEqual_float32x4); (tvec I16 4, almostEqual_int16x4)].
Definition eps_default (f : func) : list obj := if (List.length (f_params f) =? 3)%nat then [rv F64 0] else [].

Definition almost (en : vars) (m : memory) (e a : texpr) : step bool :=
  match e, a with
  | XVar x, XVar y =>
      do v <- some (Frontend.assoc x en); do w <- some (Frontend.assoc y en);
      match v, w with
      | VObj t o, VObj t' o' =>
          if same t t' then
            do p <- some (find (fun p => same (fst p) t) overloads);
            match compare_run c m (snd p) ([o; o'] ++ eps_default (snd p))%list with
            | Returns _ (Some (OScal I32 (Some z))) => Done (negb (z =? 0)%Z)
            | _ => Wrong
            end
          else Wrong
      | VMem true F32 b, VMem true F32 b' =>
          match compare_run c m almostEqual_vector [OPtr F32 b 0; OPtr F32 b' 0; rv F64 0] with
          | Returns _ (Some (OScal I32 (Some z))) => Done (negb (z =? 0)%Z)
          | _ => Wrong
          end
      | _, _ => Wrong
      end
  | _, _ => Wrong
  end.

(** EXPECT_EQ of two variables of the same scalar type: x == y (utest.h:645-669). *)
Definition equal (en : vars) (m : memory) (e a : texpr) : step bool :=
  match e, a with
  | XVar x, XVar y =>
      do v <- some (Frontend.assoc x en); do w <- some (Frontend.assoc y en);
      match v, w with
      | VObj (TScal t) (OScal _ (Some z)), VObj (TScal t') (OScal _ (Some z')) =>
          do o <- ok (binary c BEq t z t' z');
          match o with OScal I32 (Some r) => Done (negb (r =? 0)%Z) | _ => Wrong end
      | _, _ => Wrong
      end
  | _, _ => Wrong
  end.

(** A test so far: the variables, the memory, and what the runner has been told (last first). *)
Record state := mkstate { known : vars; memo : memory; told : list Runner.event }.

Definition store (t : sty) (l : list (option Z)) (vec : bool) (x : string) (s : state) : state :=
  mkstate ((x, VMem vec t (List.length (memo s))) :: known s) (memo s ++ [(t, l)])%list (told s).
Definition bind_var (x : string) (t : ty) (o : obj) (m : memory) (s : state) : state := mkstate ((x, VObj t o) :: known s) m (told s).
Definition tell (b : bool) (s : state) : state := mkstate (known s) (memo s) (Runner.Expect b :: told s).
Definition type_of (t : string) : step ty := some (Frontend.assoc t type_named).

(** Blocks: the variables of the block go at its end. *)
Fixpoint exec (s : tstmt) (st : state) : step state :=
  let en := known st in let m := memo st in
  match s with
  | TDecl t x => do ty <- type_of t; Done (bind_var x ty (fresh ty) m st)
  | TList t x l => do ty <- type_of t; do o <- aggregate en m ty l; Done (bind_var x ty o m st)
  | TInit t x e => do ty <- type_of t; do (o, m1) <- value en m ty e; Done (bind_var x ty o m1 st)
  | TArray t x n l =>
      do ty <- type_of t;
      match ty with
      | TScal s => do os <- elements en m s (match n with Some k => Z.to_nat k | None => List.length l end) l; Done (store s (map cell os) false x st)
      | _ => Wrong
      end
  | TVector x l => do os <- elements en m F32 (List.length l) l; Done (store F32 (map cell os) true x st)
  | TZeros x n => Done (store F32 (repeat (Some 0) (Z.to_nat n)) true x st)
  | TVal x i t l =>
      do ty <- type_of t; do o <- aggregate en m ty l; do v <- some (Frontend.assoc x en);
      match v with
      | VObj (TArr n t') (OArr os) =>
          if same t' ty && (0 <=? i)%Z && (i <? Z.of_nat n)%Z then Done (bind_var x (TArr n t') (OArr (set_nth (Z.to_nat i) o os)) m st) else Wrong
      | _ => Wrong
      end
  | TDo e => do (_, m1) <- value en m TVoid e; Done (mkstate en m1 (told st))
  | TAlmost e a => do b <- almost en m e a; Done (tell b st)
  | TEqual e a => do b <- equal en m e a; Done (tell b st)
  | TBlock l =>
      do st' <- (fix block (l : list tstmt) (st : state) : step state :=
                   match l with [] => Done st | s :: l' => do st1 <- exec s st; block l' st1 end) l st;
      Done (mkstate en (memo st') (told st'))
  end.
Fixpoint block (l : list tstmt) (st : state) : step state :=
  match l with [] => Done st | s :: l' => do st1 <- exec s st; block l' st1 end.

(** The test as the runner sees it.  [None]: outside of what C++ defines or this model covers. *)
Fixpoint events (l : list tstmt) (st : state) : option (list Runner.event) :=
  match l with
  | [] => Some (rev (told st))
  | s :: l' => match exec s st with
               | Done st1 => events l' st1
               | Died => Some (rev (Runner.Die :: told st))
               | Wrong => None
               end
  end.
Definition test_events (l : list tstmt) : option (list Runner.event) := events l (mkstate [] [] []).
End Semantics.

(** The functions a test calls. *)
Fixpoint calls (e : texpr) : list string :=
  match e with XCall f args => f :: flat_map calls args | _ => [] end.
Fixpoint called (s : tstmt) : list string :=
  match s with
  | TList _ _ l | TArray _ _ _ l | TVector _ l | TVal _ _ _ l => flat_map calls l
  | TInit _ _ e | TDo e => calls e
  | TAlmost e a | TEqual e a => calls e ++ calls a
  | TBlock l => flat_map called l
  | TDecl _ _ | TZeros _ _ => []
  end.
Definition suite_calls : list string := nodup string_dec (flat_map (fun p => flat_map called (snd p)) suite).

(** The function of that name in a list of functions. *)
Definition named (l : list func) (f : string) : option func := find (fun g => String.eqb (f_name g) f) l.
