(** Static types of expressions, to justify one simplification of the interpreter: the
    conditional operator does not convert its branches to a common type, which is right as
    long as the branches have the same type.  [library_type_checks] says that they do,
    everywhere in the library. *)
From Coq Require Import ZArith String List Bool.
From Verif Require Import Types FloatBits Syntax Interp ProgRecip Library.
Import ListNotations.
Open Scope Z_scope.

Definition tenv := list (string * ty).
Fixpoint tfind (x : string) (g : tenv) : option ty :=
  match g with [] => None | (y, t) :: g' => if String.eqb x y then Some t else tfind x g' end.

Fixpoint same_ty (a b : ty) : bool :=
  match a, b with
  | TVoid, TVoid => true
  | TScal s, TScal s' => sty_eqb s s'
  | TPtr s, TPtr s' => sty_eqb s s'
  | TArr n s, TArr n' s' => Nat.eqb n n' && same_ty s s'
  | TStruct l, TStruct l' =>
      (fix go l l' := match l, l' with
                      | [], [] => true
                      | x :: r, y :: r' => same_ty x y && go r r'
                      | _, _ => false
                      end) l l'
  | _, _ => false
  end.

(** No pointer inside. *)
Fixpoint plain (t : ty) : bool :=
  match t with
  | TVoid => false
  | TScal _ => true
  | TPtr _ => false
  | TArr _ t' => plain t'
  | TStruct l => (fix go l := match l with [] => true | x :: r => plain x && go r end) l
  end.

(** A value of type [t] can initialise an object of type [u]. *)
Definition initialises (t u : ty) : bool :=
  match t, u with TScal _, TScal _ => true | _, _ => same_ty t u end.

Section Check.
  (** the functions that may be called; and what else is asked of every expression *)
  Variable hs : list func.
  Variable extra : tenv -> expr -> bool.

  (** The type of an expression under the rules of C++ ([expr.prim] to [expr.cond]); none if it is
      ill-typed, has operands the library does not use, or is a conditional whose branches differ. *)
  Fixpoint type_of (g : tenv) (e : expr) : option ty :=
    match e with
    | ELit t _ => Some (TScal t)
    | EVar x => tfind x g
    | EIdx a i =>
        match type_of g a, type_of g i with
        | Some (TArr _ t), Some (TScal s) => if is_float s then None else Some t
        | Some (TPtr t), Some (TScal s) => if is_float s then None else Some (TScal t)
        | Some (TStruct l), Some (TScal s) =>
            match i with ELit _ k => if is_float s then None else nth_error l (Z.to_nat k) | _ => None end
        | _, _ => None
        end
    | EUn ULNot a => match type_of g a with Some (TScal _) => Some (TScal I32) | _ => None end
    | EUn _ a => match type_of g a with Some (TScal t) => if is_float t then None else Some (TScal (promote t)) | _ => None end
    | EBin op a b =>
        match type_of g a, type_of g b with
        | Some (TScal s), Some (TScal t) =>
            match op with
            | BLt | BGt | BLe | BGe | BEq | BNe => Some (TScal I32)
            | BShl | BShr => if is_float s || is_float t then None else Some (TScal (promote s))
            | BRem | BAnd | BOr | BXor => if is_float s || is_float t then None else Some (TScal (usual s t))
            | _ => Some (TScal (usual s t))
            end
        | _, _ => None
        end
    | EAndAlso a b | EOrElse a b =>
        match type_of g a, type_of g b with Some (TScal _), Some (TScal _) => Some (TScal I32) | _, _ => None end
    | ECond a b d =>
        match type_of g a, type_of g b, type_of g d with
        | Some (TScal _), Some tb, Some td => if same_ty tb td then Some tb else None
        | _, _, _ => None
        end
    | ECast t a => match type_of g a with Some (TScal _) => Some (TScal t) | _ => None end
    | EMin t a b | EMax t a b =>
        if is_float t then None else
        match type_of g a, type_of g b with Some (TScal _), Some (TScal _) => Some (TScal t) | _, _ => None end
    | ECall f a =>
        match find (fun h => String.eqb (f_name h) f) hs, type_of g a with
        | Some h, Some t =>
            match f_params h with
            | [(_, p)] => if initialises t p then Some (f_ret h) else None
            | _ => None
            end
        | _, _ => None
        end
    end.

  Definition type_ok (g : tenv) (u : ty) (e : expr) : bool :=
    extra g e && match type_of g e with Some t => initialises t u | None => false end.
  Definition scalar_ok (g : tenv) (e : expr) : bool :=
    extra g e && match type_of g e with Some (TScal _) => true | _ => false end.
  Definition int_ok (g : tenv) (e : expr) : bool :=
    extra g e && match type_of g e with Some (TScal s) => negb (is_float s) | _ => false end.

  (** The type of the element of an object of type [t] that [path] leads to. *)
  Fixpoint path_type (g : tenv) (t : ty) (path : list expr) : option ty :=
    match path with
    | [] => Some t
    | e :: path' =>
        if int_ok g e then
          match t, e with
          | TArr _ t', _ => path_type g t' path'
          | TStruct l, ELit _ k => match nth_error l (Z.to_nat k) with Some t' => path_type g t' path' | None => None end
          | _, _ => None
          end
        else None
    end.

  (** Statements; the result is the environment after the statement. *)
  Fixpoint check_stmt (ret : ty) (g : tenv) (s : stmt) : option tenv :=
    match s with
    | SSkip | SAbort => Some g
    | SSeq a b => match check_stmt ret g a with Some g' => check_stmt ret g' b | None => None end
    | SDecl t x None => if plain t then Some ((x, t) :: g) else None
    | SDecl t x (Some e) => if type_ok g t e then Some ((x, t) :: g) else None
    | SAssign x path e =>
        match tfind x g with
        | Some (TPtr t) =>
            match path with
            | [i] => if int_ok g i && scalar_ok g e then Some g else None
            | _ => None
            end
        | Some t =>
            match path_type g t path with
            | Some (TScal _) => if scalar_ok g e then Some g else None
            | _ => None
            end
        | None => None
        end
    | SIf e a b =>
        if scalar_ok g e then
          match check_stmt ret g a, check_stmt ret g b with Some _, Some _ => Some g | _, _ => None end
        else None
    | SFor t i init cond next body =>
        let g' := (i, TScal t) :: g in
        if scalar_ok g init && scalar_ok g' cond && scalar_ok g' next then
          match check_stmt ret g' body with Some _ => Some g | None => None end
        else None
    | SMemcpy d s n =>
        match tfind d g, tfind s g with Some _, Some _ => if int_ok g n then Some g else None | _, _ => None end
    | SReturn e => match ret with TVoid => None | _ => if type_ok g ret e then Some g else None end
    end.

  Definition type_checks (f : func) : bool :=
    match check_stmt (f_ret f) (f_params f) (f_body f) with Some _ => true | None => false end.
End Check.

(** Helpers in the order of their calls: the first three call nothing. *)
Definition leaves : list func := [RecipEstimate; float_parts_ctor; float_parts_to_float].
Definition no_more (g : tenv) (e : expr) : bool := true.

(** Every function type checks; in particular the branches of every conditional have one type. *)
Theorem library_type_checks : forall f, In f library -> type_checks helpers no_more f = true.
Proof. apply forallb_forall. vm_compute. reflexivity. Qed.
Theorem helpers_type_check : forall f, In f leaves -> type_checks [] no_more f = true.
Proof. apply forallb_forall. vm_compute. reflexivity. Qed.
Theorem helper_type_checks : type_checks leaves no_more FPRecipEstimate = true.
Proof. vm_compute. reflexivity. Qed.
