(** The interpreter of Interp.v in any floating-point environment.

    What the operators on [float] and [double] give depends on the floating-point environment of the thread: the direction
    of rounding (fesetround, C++11 26.3), and on many processors whether denormal operands and results are taken to be zero (set, for example,
    by programs linked with -ffast-math).  Here everything that the floating-point unit computes is a parameter; the rest is as in Interp.v.
    Simplification: literals are those of Interp.v, and conversions of constants are done in the environment too, though a compiler may do them
    itself, rounding to nearest; the environment is the same during a call. *)
From Coq Require Import ZArith List String Bool.
From Verif Require Import Types FloatBits Syntax Interp ProgRecip.
Import ListNotations.
Open Scope Z_scope.

(** What the floating-point unit computes: operations on two numbers of a type, comparisons, the conversions of an integer and of
    another floating-point type to a type, truncation to an integer ([None]: there is none), and whether a number is
    not zero.  All are functions of the bits. *)
Record fenv := mkfenv {
  operation : fop -> sty -> Z -> Z -> Z;
  comparison : binop -> sty -> Z -> Z -> bool;
  from_integer : sty -> Z -> Z;
  from_float : sty -> sty -> Z -> Z;
  truncation : sty -> Z -> option Z;
  nonzero : sty -> Z -> bool }.

(** The environment of Interp.v: round to nearest, no flushing. *)
Definition default_env (c : cfg) : fenv := mkfenv
  (fun o t x y => encode t (nan_of c o t x y)
     ((match o with FAdd => fadd | FSub => fsub | FMul => fmul | _ => fdiv end) t (decode t x) (decode t y)))
  (fun op t x y => compare_float op (decode t x) (decode t y))
  (fun t z => encode t 0 (sf_of_Z t z))
  (fun t to z => encode to (nan_of c FCvt to z z) (sf_cvt to (decode t z)))
  (fun t z => sf_trunc (decode t z))
  (fun t z => sf_nonzero (decode t z)).

(** An environment that compares, truncates and tests as the default one does: it differs in rounding at most. *)
Definition only_rounding (u : fenv) : Prop :=
  (forall op t x y, comparison u op t x y = compare_float op (decode t x) (decode t y)) /\
  (forall t z, truncation u t z = sf_trunc (decode t z)) /\
  (forall t z, nonzero u t z = sf_nonzero (decode t z)).

Section Env.
  Variable u : fenv.
  Variable c : cfg.

  (** Cf. [Interp.convert]. *)
  Definition convert_e (from to : sty) (z : Z) : res Z :=
    if sty_eqb from to then Ok z
    else if is_float from then
      if is_float to then Ok (from_float u from to z)
      else
        match truncation u from z with
        | Some i => if in_rangeb to i then Ok i else Err (EUB FloatCast)
        | None => Err (EUB FloatCast)
        end
    else if is_float to then Ok (from_integer u to z)
    else Ok (wrap to z).

  Definition truth_e (t : sty) (z : Z) : bool := if is_float t then nonzero u t z else negb (z =? 0).

  (** Cf. [Interp.binary]; integers are left to it. *)
  Definition binary_e (op : binop) (t1 : sty) (x1 : Z) (t2 : sty) (x2 : Z) : res obj :=
    let t := usual t1 t2 in
    if is_float t then
      let* x := convert_e t1 t x1 in
      let* y := convert_e t2 t x2 in
      match op with
      | BAdd => Ok (rv t (operation u FAdd t x y))
      | BSub => Ok (rv t (operation u FSub t x y))
      | BMul => Ok (rv t (operation u FMul t x y))
      | BDiv => Ok (rv t (operation u FDiv t x y))
      | BLt | BGt | BLe | BGe | BEq | BNe => Ok (of_bool (comparison u op t x y))
      | _ => Err EStuck
      end
    else binary c op t1 x1 t2 x2.

  Definition unary_e (op : unop) (t : sty) (x : Z) : res obj :=
    match op with ULNot => Ok (of_bool (negb (truth_e t x))) | _ => unary c op t x end.

  Definition minmax_e (mx : bool) (t : sty) (t1 : sty) (x1 : Z) (t2 : sty) (x2 : Z) : res obj :=
    if is_float t then Err EStuck else
    let* a := convert_e t1 t x1 in
    let* b := convert_e t2 t x2 in
    Ok (rv t (if mx then (if a <? b then b else a) else (if b <? a then b else a))).

  Definition cond_value_e (o : obj) : res bool := let* p := scalar o in Ok (truth_e (fst p) (snd p)).

  Section Expr.
  Variable callf : string -> obj -> res obj.

  Fixpoint eval_e (en : env) (m : memory) (e : expr) : res obj :=
    match e with
    | ELit t z => Ok (rv t z)
    | EVar x => match lookup x en with Some o => Ok o | None => Err EStuck end
    | EIdx a i =>
        let* o := eval_e en m a in
        let* oi := eval_e en m i in
        let* k := int_value oi in
        index m o k
    | EUn op a =>
        let* o := eval_e en m a in
        let* p := scalar o in unary_e op (fst p) (snd p)
    | EBin op a b =>
        let* oa := eval_e en m a in
        let* pa := scalar oa in
        let* ob := eval_e en m b in
        let* pb := scalar ob in
        binary_e op (fst pa) (snd pa) (fst pb) (snd pb)
    | EAndAlso a b =>
        let* oa := eval_e en m a in
        let* va := cond_value_e oa in
        if va then let* ob := eval_e en m b in
                   let* vb := cond_value_e ob in Ok (of_bool vb)
        else Ok (of_bool false)
    | EOrElse a b =>
        let* oa := eval_e en m a in
        let* va := cond_value_e oa in
        if va then Ok (of_bool true)
        else let* ob := eval_e en m b in
             let* vb := cond_value_e ob in Ok (of_bool vb)
    | ECond a b d =>
        (* both branches have the same type wherever ?: is used in the source
           (checked in Typing.v, library_type_checks), so no conversion *)
        let* oa := eval_e en m a in
        let* va := cond_value_e oa in
        if va then eval_e en m b else eval_e en m d
    | ECast t a =>
        let* o := eval_e en m a in
        let* p := scalar o in
        let* z := convert_e (fst p) t (snd p) in Ok (rv t z)
    | EMin t a b =>
        let* oa := eval_e en m a in
        let* pa := scalar oa in
        let* ob := eval_e en m b in
        let* pb := scalar ob in
        minmax_e false t (fst pa) (snd pa) (fst pb) (snd pb)
    | EMax t a b =>
        let* oa := eval_e en m a in
        let* pa := scalar oa in
        let* ob := eval_e en m b in
        let* pb := scalar ob in
        minmax_e true t (fst pa) (snd pa) (fst pb) (snd pb)
    | ECall f a =>
        let* o := eval_e en m a in callf f o
    end.

  Fixpoint eval_path_e (en : env) (m : memory) (p : list expr) : res (list Z) :=
    match p with
    | [] => Ok []
    | e :: p' =>
        let* o := eval_e en m e in
        let* k := int_value o in
        let* ks := eval_path_e en m p' in Ok (k :: ks)
    end.
  End Expr.

  (** Replace the scalar at [path] inside object [o] by the value [z] of type [t]. *)
  Fixpoint put_e (o : obj) (path : list Z) (t : sty) (z : Z) : res obj :=
    match path with
    | [] => match o with
            | OScal t' _ => let* z' := convert_e t t' z in Ok (rv t' z')
            | _ => Err EStuck
            end
    | i :: path' =>
        match o with
        | OArr l =>
            let* x := get_idx l i in
            let* x' := put_e x path' t z in
            Ok (OArr (set_nth (Z.to_nat i) x' l))
        | _ => Err EStuck
        end
    end.

  Definition assign_e (en : env) (m : memory) (x : string) (path : list Z)
    (v : obj) : res (env * memory) :=
    let* p := scalar v in
    match lookup x en with
    | None => Err EStuck
    | Some (OPtr t b off) =>
        match path with
        | [i] => let* z := convert_e (fst p) t (snd p) in
                 let* m' := mem_write m t b (off + i) z in Ok (en, m')
        | _ => Err EStuck
        end
    | Some o =>
        let* o' := put_e o path (fst p) (snd p) in Ok (update x o' en, m)
    end.

  Section Stmt.
  Variable callf : string -> obj -> res obj.
  Variable fuel : nat.

  Definition init_obj_e (t : ty) (o : obj) : res obj :=
    match t with
    | TScal s => let* p := scalar o in
                 let* z := convert_e (fst p) s (snd p) in Ok (rv s z)
    | _ => Ok o
    end.

  Fixpoint exec_e (s : stmt) (en : env) (m : memory) : res ctl :=
    match s with
    | SSkip => Ok (Normal en m)
    | SSeq s1 s2 =>
        let* r := exec_e s1 en m in
        match r with
        | Normal en' m' => exec_e s2 en' m'
        | Returned _ _ => Ok r
        end
    | SDecl t x None => Ok (Normal ((x, fresh t) :: en) m)
    | SDecl t x (Some e) =>
        let* o := eval_e callf en m e in
        let* o' := init_obj_e t o in
        Ok (Normal ((x, o') :: en) m)
    | SAssign x path e =>
        let* ks := eval_path_e callf en m path in
        let* v := eval_e callf en m e in
        let* r := assign_e en m x ks v in
        Ok (Normal (fst r) (snd r))
    | SIf e s1 s2 =>
        let* o := eval_e callf en m e in
        let* b := cond_value_e o in
        let* r := (if b then exec_e s1 en m else exec_e s2 en m) in
        Ok (pop_ctl (List.length en) r)
    | SFor t i init cond next body =>
        let* o := eval_e callf en m init in
        let* o' := init_obj_e (TScal t) o in
        let en0 := (i, o') :: en in
        let* r :=
          loop fuel
            (fun en m => let* o := eval_e callf en m cond in cond_value_e o)
            (fun en m =>
               let* r := exec_e body en m in
               match pop_ctl (List.length en) r with
               | Normal en' m' =>
                   let* v := eval_e callf en' m' next in
                   let* r := assign_e en' m' i [] v in
                   Ok (Normal (fst r) (snd r))
               | Returned v m' => Ok (Returned v m')
               end)
            en0 m in
        Ok (pop_ctl (List.length en) r)
    | SMemcpy dst src n =>
        let* o := eval_e callf en m n in
        let* k := int_value o in
        match lookup dst en, lookup src en with
        | Some od, Some os =>
            let* od' := memcpy_obj od os k in
            Ok (Normal (update dst od' en) m)
        | _, _ => Err EStuck
        end
    | SAbort => Err EAbort
    | SReturn e =>
        let* o := eval_e callf en m e in Ok (Returned o m)
    end.

  (** Parameter passing: scalars are converted to the parameter's type. *)
  Fixpoint bind_params_e (ps : list (string * ty)) (args : list obj) : res env :=
    match ps, args with
    | [], [] => Ok []
    | (x, t) :: ps', a :: args' =>
        let* o := init_obj_e t a in
        let* en := bind_params_e ps' args' in Ok ((x, o) :: en)
    | _, _ => Err EStuck
    end.

  Definition run_body_e (f : func) (args : list obj) (m : memory) : res (option obj * memory) :=
    let* en := bind_params_e (f_params f) args in
    let* r := exec_e (f_body f) en m in
    match r, f_ret f with
    | Returned _ _, TVoid => Err EStuck
    | Returned v m', t => let* v' := init_obj_e t v in Ok (Some v', m')
    | Normal _ m', TVoid => Ok (None, m')
    | Normal _ _, _ => Err (EUB MissingReturn)
    end.
  End Stmt.
End Env.


(** Calls to the (one-argument, pointer-free) helper functions of [prog]. *)
Fixpoint call_helper_e (u : fenv) (c : cfg) (prog : list func) (fuel : nat) (depth : nat)
  (name : string) (a : obj) : res obj :=
  match depth with
  | O => Err EStuck
  | S d =>
      match find (fun f => String.eqb (f_name f) name) prog with
      | None => Err EStuck
      | Some f =>
          let* r := run_body_e u c (call_helper_e u c prog fuel d) fuel f [a] [] in
          match fst r with Some v => Ok v | None => Err EStuck end
      end
  end.

(** A call in environment [u]. *)
Definition run_env (u : fenv) (c : cfg) (m : memory) (f : func) (args : list obj) : outcome :=
  outcome_of (run_body_e u c (call_helper_e u c helpers loop_fuel call_depth) loop_fuel f args m).
