(** Programs that include neon_sim.h: what the compiler checks (types of vectors, initialiser lists), what the linker
    checks, and what the program does.  The programs are in the fragment of C++ of Suite.v.  Nothing here is code of
    neon_sim, but the types and the declarations are those of neon_sim.h. *)
From Coq Require Import ZArith String List Bool.
From Verif Require Import Types FloatBits Syntax Interp ProgRecip Library Header Frontend MetaSpec.
From Verif Require SourceH Suite.
Import ListNotations.
Import Suite (texpr(..), tstmt(..)).
Open Scope Z_scope.
Local Open Scope string_scope.

(** ** Text *)

(** The statements of a program, given as lines of text. *)
Definition statements (ls : list string) : option (list tstmt) :=
  match Suite.tokens (ls ++ ["}"])%list with
  | Some ts => match Suite.p_stmts (length ts) ts with Some (l, []) => Some l | _ => None end
  | None => None
  end.

(** ** Declarations *)

(** The names of types, after neon_sim.h:6-330 has been read. *)
Definition read_types (h : list string) : option (list (string * ty)) :=
  match preprocess (mkp ["__cplusplus"] []) 1 h with
  | Some (_, ts) =>
      match p_items (S (length ts)) (mkenv scalar_types [] [] []) 0 ts with Some (E, _) => Some (types E) | None => None end
  | None => None
  end.
Definition lanes_name (n : nat) : string :=
  match n with 1%nat => "1" | 2%nat => "2" | 3%nat => "3" | 4%nat => "4" | 8%nat => "8" | _ => "16" end.
Definition element_types : list (string * sty) :=
  [("int8", I8); ("int16", I16); ("int32", I32); ("int64", I64); ("uint8", U8); ("uint16", U16); ("uint32", U32); ("uint64", U64);
   ("float32", F32); ("float64", F64)].
(** int8x8_t, int8x16_t, .. and int8x8x2_t, .. *)
Definition vector_types : list (string * ty) :=
  flat_map (fun e => map (fun q => (fst e ++ "x" ++ lanes_name (q / nbytes (snd e)) ++ "_t", tvec (snd e) (q / nbytes (snd e)))) [8; 16]%nat)
    element_types.
Definition tuple_types : list (string * ty) :=
  flat_map (fun w => flat_map (fun e => map (fun q =>
    (fst e ++ "x" ++ lanes_name (q / nbytes (snd e)) ++ "x" ++ lanes_name w ++ "_t", tvecs w (snd e) (q / nbytes (snd e)))) [8; 16]%nat)
    element_types) [2; 3; 4]%nat.
Definition type_names : list (string * ty) :=
  (scalar_types ++ [("float32_t", TScal F32); ("float64_t", TScal F64)] ++ vector_types ++ tuple_types)%list.

(** The declaration of a function: neon_sim.h:472-2660. *)
Definition declared (f : string) : option (ty * list ty) :=
  match find (fun d => (fst (fst (fst d)) =? f)%string) header with Some (_, r, ps, _) => Some (r, ps) | None => None end.

Fixpoint same_type (a b : ty) {struct a} : bool :=
  match a, b with
  | TVoid, TVoid => true
  | TScal s, TScal t | TPtr s, TPtr t => sty_eqb s t
  | TArr n s, TArr k t => (n =? k)%nat && same_type s t
  | TStruct l, TStruct l' =>
      (fix go l l' := match l, l' with [], [] => true | x :: r, y :: r' => same_type x y && go r r' | _, _ => false end) l l'
  | _, _ => false
  end.
Fixpoint same_types (a b : list ty) : bool :=
  match a, b with [], [] => true | x :: a', y :: b' => same_type x y && same_types a' b' | _, _ => false end.

(** The definition the linker finds for a declaration. *)
Definition linked (f : string) (r : ty) (ps : list ty) : option func :=
  find (fun d => (f_name d =? f)%string && same_type (f_ret d) r && same_types (map snd (f_params d)) ps) library.

(** ** The compiler *)

(** A variable of an object type, or an array. *)
Inductive kind := KObj (t : ty) | KArr (s : sty).
Definition scope : Type := list (string * kind).

(** An expression of type [t] can be used where [want] is wanted: scalars are converted, everything else must be the same type. *)
Definition usable (t want : ty) : bool := match t, want with TScal _, TScal _ => true | _, _ => same_type t want end.

(** A literal with a point that has not too many digits (simplification: with more the program is rejected). *)
Definition short (m : Z) (k : nat) : bool := (Z.abs m <? 2 ^ 53)%Z && (10 ^ Z.of_nat k <? 2 ^ 53)%Z.

(** The expression can be used as an argument or initialiser of type [want].  Simplifications: integer literals are of type
    int; &x and x.data() are rejected. *)
Fixpoint fits (en : scope) (want : ty) (e : texpr) {struct e} : bool :=
  match e with
  | XNum m None => match want with TScal _ => in_rangeb I32 m | _ => false end
  | XNum m (Some k) => match want with TScal _ => short m k | _ => false end
  | XVar x =>
      match assoc x en with
      | Some (KObj t) => usable t want
      | Some (KArr s) => match want with TPtr s' => sty_eqb s s' | _ => false end
      | None => false
      end
  | XVal x i => match assoc x en with Some (KObj (TArr n t)) => usable t want | _ => false end
  | XCall f args =>
      match declared f with
      | Some (r, ps) =>
          usable r want &&
          (fix all (ps : list ty) (args : list texpr) {struct args} : bool :=
             match ps, args with [], [] => true | p :: ps', a :: args' => fits en p a && all ps' args' | _, _ => false end) ps args
      | None => false
      end
  | _ => false
  end.

(** In an initialiser list conversions must not narrow: a literal must be a number of the type (for float: no more than 2^24;
    simplification), everything else must be of the type. *)
Definition listed (en : scope) (s : sty) (e : texpr) : bool :=
  fits en (TScal s) e &&
  match e with
  | XNum m None => if is_float s then (Z.abs m <=? 2 ^ 24)%Z else in_rangeb s m
  | XNum _ (Some _) => is_float s
  | XVar x => match assoc x en with Some (KObj t) => same_type t (TScal s) | _ => false end
  | XVal x _ => match assoc x en with Some (KObj (TArr _ t)) => same_type t (TScal s) | _ => false end
  | XCall f _ => match declared f with Some (r, _) => same_type r (TScal s) | None => false end
  | _ => false
  end.

(** { l } for [n] elements, for a vector or for a tuple of vectors.  Simplification: { v } does not copy a vector v. *)
Definition elements_fit (en : scope) (s : sty) (n : nat) (l : list texpr) : bool := (length l <=? n)%nat && forallb (listed en s) l.
Definition braces_fit (en : scope) (t : ty) (l : list texpr) : bool :=
  match t with
  | TArr n (TScal s) => elements_fit en s n l
  | TArr n t' => (length l <=? n)%nat && forallb (fits en t') l
  | _ => false
  end.

Definition object_type (t : string) : option ty :=
  match assoc t type_names with Some (TScal s) => Some (TScal s) | Some (TArr n u) => Some (TArr n u) | _ => None end.

(** The statement compiles; the variables after it.  Simplification: a name may be declared again. *)
Fixpoint check (s : tstmt) (en : scope) : option scope :=
  match s with
  | TDecl t x => match object_type t with Some ty => Some ((x, KObj ty) :: en) | None => None end
  | TList t x l =>
      match object_type t with Some ty => if braces_fit en ty l then Some ((x, KObj ty) :: en) else None | None => None end
  | TInit t x e => match object_type t with Some ty => if fits en ty e then Some ((x, KObj ty) :: en) else None | None => None end
  | TArray t x n l =>
      match object_type t with
      | Some (TScal s) =>
          if elements_fit en s (match n with Some k => Z.to_nat k | None => length l end) l then Some ((x, KArr s) :: en) else None
      | _ => None
      end
  | TDo (XCall f args) =>
      match declared f with Some (r, _) => if fits en r (XCall f args) then Some en else None | None => None end
  | TBlock l =>
      match (fix all (l : list tstmt) (en : scope) : option scope :=
               match l with [] => Some en | s :: l' => match check s en with Some en' => all l' en' | None => None end end) l en with
      | Some _ => Some en
      | None => None
      end
  | _ => None
  end.
Fixpoint check_all (l : list tstmt) (en : scope) : option scope :=
  match l with [] => Some en | s :: l' => match check s en with Some en' => check_all l' en' | None => None end end.
Definition compiles (l : list tstmt) : bool := match check_all l [] with Some _ => true | None => false end.

(** Specification: an expression has a type. *)
Inductive of_type (en : scope) : texpr -> ty -> Prop :=
| ty_int m : in_range I32 m -> of_type en (XNum m None) (TScal I32)
| ty_double m k : short m k = true -> of_type en (XNum m (Some k)) (TScal F64)
| ty_object x t : assoc x en = Some (KObj t) -> of_type en (XVar x) t
| ty_array x s : assoc x en = Some (KArr s) -> of_type en (XVar x) (TPtr s)
| ty_lane x n t i : assoc x en = Some (KObj (TArr n t)) -> of_type en (XVal x i) t
| ty_call f args r ps line : In (f, r, ps, line) header -> arguments en args ps -> of_type en (XCall f args) r
(** Arguments for parameters of these types. *)
with arguments (en : scope) : list texpr -> list ty -> Prop :=
| args_nil : arguments en [] []
| args_cons a l t p ps : of_type en a t -> t = p \/ (exists s s', t = TScal s /\ p = TScal s') -> arguments en l ps ->
    arguments en (a :: l) (p :: ps).

(** ** The linker *)

Definition found (f : string) : bool :=
  match declared f with Some (r, ps) => match linked f r ps with Some _ => true | None => false end | None => false end.
Definition links (l : list tstmt) : bool := forallb found (flat_map Suite.called l).

(** ** The program runs *)

(** A step: a result; abort; undefined behaviour; or there is no meaning to it, as when an argument is not of the type of
    the parameter. *)
Inductive result (A : Type) := Fine (a : A) | Stopped | Behaviour (k : ub) | Meaningless.
Arguments Fine {A}. Arguments Stopped {A}. Arguments Behaviour {A}. Arguments Meaningless {A}.
Definition after {A B} (s : result A) (f : A -> result B) : result B :=
  match s with Fine a => f a | Stopped => Stopped | Behaviour k => Behaviour k | Meaningless => Meaningless end.
Notation "'get' x <- s ; k" := (after s (fun x => k)) (at level 100, x pattern, s at level 99, k at level 100, right associativity).
Definition or_none {A} (o : option A) : result A := match o with Some a => Fine a | None => Meaningless end.
Definition of_res {A} (r : Interp.res A) : result A :=
  match r with Ok a => Fine a | Err (EUB k) => Behaviour k | Err EAbort => Stopped | Err _ => Meaningless end.

Inductive variable := VObj (t : ty) (o : obj) | VArr (s : sty) (b : nat).
Definition vars : Type := list (string * variable).

Fixpoint zero (t : ty) : obj :=
  match t with TScal s => rv s 0 | TArr n t' => OArr (repeat (zero t') n) | _ => OArr [] end.

(** The contents of objects as contents of a block. *)
Definition cell (o : obj) : option Z := match o with OScal _ z => z | _ => None end.

Section Run.
Variable c : cfg.

(** Scalars are converted to the type wanted. *)
Definition adapt (want : ty) (o : obj) : result obj :=
  match want, o with
  | TScal s, OScal s' (Some z) => get z' <- of_res (convert c s' s z); Fine (rv s z')
  | TScal _, OScal _ None => Behaviour Uninitialised
  | _, _ => Fine o
  end.

(** A literal with a point is a double, correctly rounded. *)
Definition double_literal (m : Z) (k : nat) : Z :=
  let d z := decode F64 (encode F64 0 (sf_of_Z F64 z)) in encode F64 0 (fdiv F64 (d m) (d (10 ^ Z.of_nat k))).

(** Arguments are evaluated from left to right (C68: no matter). *)
Fixpoint eval (en : vars) (m : memory) (want : ty) (e : texpr) {struct e} : result (obj * memory) :=
  match e with
  | XNum z None => get o <- adapt want (rv I32 z); Fine (o, m)
  | XNum z (Some k) => get o <- adapt want (rv F64 (double_literal z k)); Fine (o, m)
  | XVar x =>
      get v <- or_none (assoc x en);
      match v with
      | VObj t o => if usable t want then (get o' <- adapt want o; Fine (o', m)) else Meaningless
      | VArr s b => match want with TPtr s' => if sty_eqb s s' then Fine (OPtr s b 0, m) else Meaningless | _ => Meaningless end
      end
  | XVal x i =>
      get v <- or_none (assoc x en);
      match v with
      | VObj (TArr n t) (OArr l) =>
          if usable t want then
            if (0 <=? i)%Z && (i <? Z.of_nat n)%Z then
              get o <- or_none (nth_error l (Z.to_nat i)); get o' <- adapt want o; Fine (o', m)
            else Behaviour OutOfBounds
          else Meaningless
      | _ => Meaningless
      end
  | XCall f args =>
      get (r, ps) <- or_none (declared f);
      get (os, m1) <- (fix values (ps : list ty) (m : memory) (l : list texpr) {struct l} : result (list obj * memory) :=
                         match ps, l with
                         | [], [] => Fine ([], m)
                         | t :: ps', a :: l' => get (o, m1) <- eval en m t a; get (os, m2) <- values ps' m1 l'; Fine (o :: os, m2)
                         | _, _ => Meaningless
                         end) ps m args;
      get fn <- or_none (linked f r ps);
      match run c m1 fn os with
      | Returns m2 (Some o) => if usable r want then (get o' <- adapt want o; Fine (o', m2)) else Meaningless
      | Returns m2 None => match want with TVoid => Fine (OArr [], m2) | _ => Meaningless end
      | Aborts => Stopped
      | Undefined k => Behaviour k
      | _ => Meaningless
      end
  | _ => Meaningless
  end.

(** The values of the expressions [l], then zeros, [n] altogether. *)
Fixpoint eval_list (en : vars) (m : memory) (t : ty) (n : nat) (l : list texpr) : result (list obj * memory) :=
  match n, l with
  | O, [] => Fine ([], m)
  | S n', e :: l' => get (o, m1) <- eval en m t e; get (os, m2) <- eval_list en m1 t n' l'; Fine (o :: os, m2)
  | S n', [] => get (os, m1) <- eval_list en m t n' []; Fine (zero t :: os, m1)
  | O, _ :: _ => Meaningless
  end.

Definition state : Type := vars * memory.

Fixpoint exec (s : tstmt) (st : state) : result state :=
  let (en, m) := st in
  match s with
  | TDecl t x => get ty <- or_none (object_type t); Fine ((x, VObj ty (fresh ty)) :: en, m)
  | TList t x l =>
      get ty <- or_none (object_type t);
      match ty with
      | TArr n u => get (os, m1) <- eval_list en m u n l; Fine ((x, VObj ty (OArr os)) :: en, m1)
      | _ => Meaningless
      end
  | TInit t x e => get ty <- or_none (object_type t); get (o, m1) <- eval en m ty e; Fine ((x, VObj ty o) :: en, m1)
  | TArray t x n l =>
      get ty <- or_none (object_type t);
      match ty with
      | TScal s =>
          get (os, m1) <- eval_list en m ty (match n with Some k => Z.to_nat k | None => length l end) l;
          Fine ((x, VArr s (length m1)) :: en, m1 ++ [(s, map cell os)])%list
      | _ => Meaningless
      end
  | TDo (XCall f args) => get (r, _) <- or_none (declared f); get (_, m1) <- eval en m r (XCall f args); Fine (en, m1)
  | TBlock l =>
      get (_, m1) <- (fix all (l : list tstmt) (st : state) : result state :=
                        match l with [] => Fine st | s :: l' => get st1 <- exec s st; all l' st1 end) l (en, m);
      Fine (en, m1)
  | _ => Meaningless
  end.
Fixpoint exec_all (l : list tstmt) (st : state) : result state :=
  match l with [] => Fine st | s :: l' => get st1 <- exec s st; exec_all l' st1 end.
Definition execute (l : list tstmt) : result state := exec_all l ([], []).
End Run.

(** Specification: variable [v] is what the compiler takes it for, [k]. *)
Definition as_declared (m : memory) (k : string * kind) (v : string * variable) : Prop :=
  fst k = fst v /\
  match snd k with
  | KObj t => exists o, snd v = VObj t o /\ has_type m t o
  | KArr s => exists b cells, snd v = VArr s b /\ nth_error m b = Some (s, cells)
  end.

(** The vectors and the tuples of vectors. *)
Definition struct_names : list (string * ty) := (vector_types ++ tuple_types)%list.
(** Integer literals. *)
Definition literals (l : list Z) : list texpr := map (fun z => XNum z None) l.
