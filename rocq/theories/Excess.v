(** The interpreter of Interp.v with floating-point expressions evaluated in a wider format.

    A C++ implementation may evaluate the operators on [float] and [double] with greater range and
    precision than these types have ([FLT_EVAL_METHOD], C++11 5/12, C99 5.2.4.2.2/8); casts and
    assignments round to the type.  With the instructions of the x87, as GCC uses them on 32-bit x86, all are evaluated in
    the extended format; others evaluate [float] in double.  Here the format is a parameter.  The value
    of an expression is an object as in Interp.v, rounded to the type of the expression, together
    with the value before this rounding if the expression is an arithmetic one.

    Simplifications: the argument of a function that is called and the value of a return statement are rounded to the type of the expression
    before they are converted to that of the parameter or function; a NaN has the bits it has if nothing is evaluated in another format
    (C69 says that they do not matter); literals are those of their type. *)
From Coq Require Import ZArith List String Bool.
From Coq Require Import Floats.SpecFloat.
From Verif Require Import Types FloatBits Syntax Interp ProgRecip.
Import ListNotations.
Open Scope Z_scope.

(** Number of digits of the significand, and the exponent all numbers are below. *)
Record format := mkformat { digits : Z; max_exp : Z }.
Definition double_format : format := mkformat 53 1024.
Definition x87_format : format := mkformat 64 16384.
Definition quad_format : format := mkformat 113 16384.

(** An object and, if it is the rounded result of an operation, the result. *)
Definition wide : Type := obj * option spec_float.
Definition exact (o : obj) : wide := (o, None).

Section Expr.
  Variable w : format.
  Variable c : cfg.
  Variable callf : string -> obj -> res obj.

  (** A number of a narrower format in the format of the evaluation. *)
  Definition widen (x : spec_float) : spec_float :=
    match x with
    | S754_finite s m e => binary_normalize (digits w) (max_exp w) (cond_Zopp s (Zpos m)) e s
    | _ => x
    end.

  (** An operand of type [t] in the format of the evaluation. *)
  Definition operand (t : sty) (z : Z) (x : option spec_float) : spec_float :=
    match x with
    | Some x => x
    | None => if is_float t then widen (decode t z) else binary_normalize (digits w) (max_exp w) z 0 false
    end.

  (** Conversion to type [to]; cf. [convert]. *)
  Definition convert_x (from to : sty) (z : Z) (x : option spec_float) : res Z :=
    match x with
    | None => convert c from to z
    | Some x =>
        if sty_eqb from to then Ok z
        else if is_float to then Ok (encode to (nan_of c FCvt to z z) (sf_cvt to x))
        else match sf_trunc x with
             | Some i => if in_rangeb to i then Ok i else Err (EUB FloatCast)
             | None => Err (EUB FloatCast)
             end
    end.

  Definition binary_x (op : binop) (t1 : sty) (z1 : Z) (x1 : option spec_float) (t2 : sty) (z2 : Z) (x2 : option spec_float) : res wide :=
    let t := usual t1 t2 in
    if is_float t then
      let* k1 := convert_x t1 t z1 x1 in
      let* k2 := convert_x t2 t z2 x2 in
      let a := operand t1 z1 x1 in
      let b := operand t2 z2 x2 in
      let result f r := Ok (rv t (encode t (nan_of c f t k1 k2) (sf_cvt t r)), Some r) in
      match op with
      | BAdd => result FAdd (SFadd (digits w) (max_exp w) a b)
      | BSub => result FSub (SFsub (digits w) (max_exp w) a b)
      | BMul => result FMul (SFmul (digits w) (max_exp w) a b)
      | BDiv => result FDiv (SFdiv (digits w) (max_exp w) a b)
      | BLt | BGt | BLe | BGe | BEq | BNe => Ok (exact (of_bool (compare_float op a b)))
      | _ => Err EStuck
      end
    else let* o := binary c op t1 z1 t2 z2 in Ok (exact o).

  Definition cond_x (v : wide) : res bool :=
    match snd v with Some x => Ok (sf_nonzero x) | None => cond_value (fst v) end.

  Fixpoint eval_x (en : env) (m : memory) (e : expr) : res wide :=
    match e with
    | ELit t z => Ok (exact (rv t z))
    | EVar x => match lookup x en with Some o => Ok (exact o) | None => Err EStuck end
    | EIdx a i =>
        let* o := eval_x en m a in
        let* oi := eval_x en m i in
        let* k := int_value (fst oi) in
        let* r := index m (fst o) k in Ok (exact r)
    | EUn op a =>
        let* o := eval_x en m a in
        let* p := scalar (fst o) in
        match op, snd o with
        | ULNot, Some x => Ok (exact (of_bool (negb (sf_nonzero x))))
        | _, _ => let* r := unary c op (fst p) (snd p) in Ok (exact r)
        end
    | EBin op a b =>
        let* oa := eval_x en m a in
        let* pa := scalar (fst oa) in
        let* ob := eval_x en m b in
        let* pb := scalar (fst ob) in
        binary_x op (fst pa) (snd pa) (snd oa) (fst pb) (snd pb) (snd ob)
    | EAndAlso a b =>
        let* oa := eval_x en m a in
        let* va := cond_x oa in
        if va then let* ob := eval_x en m b in
                   let* vb := cond_x ob in Ok (exact (of_bool vb))
        else Ok (exact (of_bool false))
    | EOrElse a b =>
        let* oa := eval_x en m a in
        let* va := cond_x oa in
        if va then Ok (exact (of_bool true))
        else let* ob := eval_x en m b in
             let* vb := cond_x ob in Ok (exact (of_bool vb))
    | ECond a b d =>
        let* oa := eval_x en m a in
        let* va := cond_x oa in
        if va then eval_x en m b else eval_x en m d
    | ECast t a =>
        let* o := eval_x en m a in
        let* p := scalar (fst o) in
        let* z := convert_x (fst p) t (snd p) (snd o) in Ok (exact (rv t z))
    | EMin t a b | EMax t a b =>
        let* oa := eval_x en m a in
        let* pa := scalar (fst oa) in
        let* ob := eval_x en m b in
        let* pb := scalar (fst ob) in
        if is_float t then Err EStuck else
        let* za := convert_x (fst pa) t (snd pa) (snd oa) in
        let* zb := convert_x (fst pb) t (snd pb) (snd ob) in
        let* r := minmax c (match e with EMax _ _ _ => true | _ => false end) t t za t zb in Ok (exact r)
    | ECall f a => let* o := eval_x en m a in let* r := callf f (fst o) in Ok (exact r)
    end.

  Fixpoint eval_path_x (en : env) (m : memory) (p : list expr) : res (list Z) :=
    match p with
    | [] => Ok []
    | e :: p' =>
        let* o := eval_x en m e in
        let* k := int_value (fst o) in
        let* ks := eval_path_x en m p' in Ok (k :: ks)
    end.

  Definition init_x (t : ty) (v : wide) : res obj :=
    match t with
    | TScal s => let* p := scalar (fst v) in
                 let* z := convert_x (fst p) s (snd p) (snd v) in Ok (rv s z)
    | _ => Ok (fst v)
    end.

  (** The type of the scalar at [path] inside object [o]. *)
  Fixpoint type_at (o : obj) (path : list Z) : res sty :=
    match path with
    | [] => match o with OScal t _ => Ok t | _ => Err EStuck end
    | i :: path' =>
        match o with
        | OArr l => let* x := get_idx l i in type_at x path'
        | OPtr t _ _ => match path' with [] => Ok t | _ => Err EStuck end
        | _ => Err EStuck
        end
    end.

  Definition assign_x (en : env) (m : memory) (x : string) (path : list Z) (v : wide) : res (env * memory) :=
    match snd v with
    | None => assign c en m x path (fst v)
    | Some _ =>
        let* p := scalar (fst v) in
        match lookup x en with
        | None => Err EStuck
        | Some o =>
            let* t := type_at o path in
            let* z := convert_x (fst p) t (snd p) (snd v) in assign c en m x path (rv t z)
        end
    end.
End Expr.

Section Stmt.
  Variable w : format.
  Variable c : cfg.
  Variable callf : string -> obj -> res obj.
  Variable fuel : nat.

  Fixpoint exec_x (s : stmt) (en : env) (m : memory) : res ctl :=
    match s with
    | SSkip => Ok (Normal en m)
    | SSeq s1 s2 =>
        let* r := exec_x s1 en m in
        match r with
        | Normal en' m' => exec_x s2 en' m'
        | Returned _ _ => Ok r
        end
    | SDecl t y None => Ok (Normal ((y, fresh t) :: en) m)
    | SDecl t y (Some e) =>
        let* o := eval_x w c callf en m e in
        let* o' := init_x c t o in
        Ok (Normal ((y, o') :: en) m)
    | SAssign y path e =>
        let* ks := eval_path_x w c callf en m path in
        let* v := eval_x w c callf en m e in
        let* r := assign_x c en m y ks v in
        Ok (Normal (fst r) (snd r))
    | SIf e s1 s2 =>
        let* o := eval_x w c callf en m e in
        let* b := cond_x o in
        let* r := (if b then exec_x s1 en m else exec_x s2 en m) in
        Ok (pop_ctl (List.length en) r)
    | SFor t i init cond next body =>
        let* o := eval_x w c callf en m init in
        let* o' := init_x c (TScal t) o in
        let en0 := (i, o') :: en in
        let* r :=
          loop fuel
            (fun en m => let* o := eval_x w c callf en m cond in cond_x o)
            (fun en m =>
               let* r := exec_x body en m in
               match pop_ctl (List.length en) r with
               | Normal en' m' =>
                   let* v := eval_x w c callf en' m' next in
                   let* r := assign_x c en' m' i [] v in
                   Ok (Normal (fst r) (snd r))
               | Returned v m' => Ok (Returned v m')
               end)
            en0 m in
        Ok (pop_ctl (List.length en) r)
    | SMemcpy dst src n =>
        let* o := eval_x w c callf en m n in
        let* k := int_value (fst o) in
        match lookup dst en, lookup src en with
        | Some od, Some os =>
            let* od' := memcpy_obj od os k in
            Ok (Normal (update dst od' en) m)
        | _, _ => Err EStuck
        end
    | SAbort => Err EAbort
    | SReturn e => let* o := eval_x w c callf en m e in Ok (Returned (fst o) m)
    end.

  Definition run_body_x (f : func) (args : list obj) (m : memory) : res (option obj * memory) :=
    let* en := bind_params c (f_params f) args in
    let* r := exec_x (f_body f) en m in
    match r, f_ret f with
    | Returned _ _, TVoid => Err EStuck
    | Returned v m', t => let* v' := init_obj c t v in Ok (Some v', m')
    | Normal _ m', TVoid => Ok (None, m')
    | Normal _ _, _ => Err (EUB MissingReturn)
    end.
End Stmt.

Fixpoint call_helper_x (w : format) (c : cfg) (prog : list func) (fuel : nat) (depth : nat)
  (name : string) (a : obj) : res obj :=
  match depth with
  | O => Err EStuck
  | S d =>
      match find (fun f => String.eqb (f_name f) name) prog with
      | None => Err EStuck
      | Some f =>
          let* r := run_body_x w c (call_helper_x w c prog fuel d) fuel f [a] [] in
          match fst r with Some v => Ok v | None => Err EStuck end
      end
  end.

(** A call, with expressions evaluated in format [w]. *)
Definition run_excess (w : format) (c : cfg) (m : memory) (f : func) (args : list obj) : outcome :=
  outcome_of (run_body_x w c (call_helper_x w c helpers loop_fuel call_depth) loop_fuel f args m).
