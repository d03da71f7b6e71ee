(** The interpreter of Interp.v with the contraction of floating-point expressions left open.

    A compiler may evaluate [a * b + c] on floating-point operands as one operation, with one rounding
    (C99 6.5/8; for C++ it is [-ffp-contract], on by default in GCC for targets with fused
    instructions).  Here it is decided at every evaluation of a sum or difference, by a function of
    the expression and of the state it is evaluated in, whether its left or right operand, if that is a
    product, is fused with it.  A product that is converted on its way to the sum (vrecpsq_f32,
    neon_sim.cpp:4349, multiplies floats and subtracts doubles) may be fused too.  Everything else is
    as in Interp.v, whose definitions are used.

    Only contraction within one expression is modelled, not across statements or calls. *)
From Coq Require Import ZArith List String Bool.
From Coq Require Import Floats.SpecFloat.
From Verif Require Import Types FloatBits Syntax Interp ProgRecip.
Import ListNotations.
Open Scope Z_scope.

Inductive fusion := NoFuse | FuseLeft | FuseRight.

Record contraction := mkcontraction {
  choose : env -> memory -> expr -> fusion;
  fused_nan : sty -> Z -> Z -> Z -> Z   (* the sign and payload of a NaN result *)
}.

(** x * y + z with one rounding.  If x or y is zero, infinite or NaN, the product is exact. *)
Definition sf_fma (t : sty) (x y z : spec_float) : spec_float :=
  match x, y with
  | S754_finite sx mx ex, S754_finite sy my ey =>
      let p := cond_Zopp (xorb sx sy) (Zpos mx * Zpos my) in
      match z with
      | S754_finite sz mz ez =>
          let e := Z.min (ex + ey) ez in
          binary_normalize (fprec t) (femax t)
            (p * 2 ^ (ex + ey - e) + cond_Zopp sz (Zpos mz) * 2 ^ (ez - e)) e false
      | S754_zero sz => binary_normalize (fprec t) (femax t) p (ex + ey) (xorb sx sy)
      | _ => z
      end
  | _, _ => fadd t (fmul t x y) z
  end.

Section Expr.
  Variable x : contraction.
  Variable c : cfg.
  Variable callf : string -> obj -> res obj.

  (** p1 * p2 + p3, or with a minus sign before the product or before p3 *)
  Definition fused (neg_product neg_other : bool) (p1 p2 p3 : sty * Z) : res obj :=
    let tm := usual (fst p1) (fst p2) in
    let t := usual tm (fst p3) in
    let sign (b : bool) v := if b then SFopp v else v in
    let* a := convert c (fst p1) tm (snd p1) in
    let* b := convert c (fst p2) tm (snd p2) in
    let* d := convert c (fst p3) t (snd p3) in
    Ok (rv t (encode t (fused_nan x t a b d)
                (sf_fma t (sign neg_product (decode tm a)) (decode tm b) (sign neg_other (decode t d))))).

  Definition additive (op : binop) : bool := match op with BAdd | BSub => true | _ => false end.
  Definition minus (op : binop) : bool := match op with BSub => true | _ => false end.

  Fixpoint eval_f (en : env) (m : memory) (e : expr) : res obj :=
    let value (r : res obj) := let* o := r in scalar o in
    match e with
    | ELit t z => Ok (rv t z)
    | EVar x => match lookup x en with Some o => Ok o | None => Err EStuck end
    | EIdx a i =>
        let* o := eval_f en m a in
        let* oi := eval_f en m i in
        let* k := int_value oi in
        index m o k
    | EUn op a =>
        let* o := eval_f en m a in
        let* p := scalar o in unary c op (fst p) (snd p)
    | EBin op a b =>
        let separate :=
          let* oa := eval_f en m a in
          let* pa := scalar oa in
          let* ob := eval_f en m b in
          let* pb := scalar ob in
          binary c op (fst pa) (snd pa) (fst pb) (snd pb) in
        match (if additive op then choose x en m e else NoFuse) with
        | NoFuse => separate
        | FuseLeft =>
            match a with
            | EBin BMul a1 a2 =>
                let* p1 := value (eval_f en m a1) in
                let* p2 := value (eval_f en m a2) in
                if is_float (usual (fst p1) (fst p2))
                then let* p3 := value (eval_f en m b) in fused false (minus op) p1 p2 p3
                else separate
            | _ => separate
            end
        | FuseRight =>
            match b with
            | EBin BMul b1 b2 =>
                let* p3 := value (eval_f en m a) in
                let* p1 := value (eval_f en m b1) in
                let* p2 := value (eval_f en m b2) in
                if is_float (usual (fst p1) (fst p2)) then fused (minus op) false p1 p2 p3 else separate
            | _ => separate
            end
        end
    | EAndAlso a b =>
        let* oa := eval_f en m a in
        let* va := cond_value oa in
        if va then let* ob := eval_f en m b in
                   let* vb := cond_value ob in Ok (of_bool vb)
        else Ok (of_bool false)
    | EOrElse a b =>
        let* oa := eval_f en m a in
        let* va := cond_value oa in
        if va then Ok (of_bool true)
        else let* ob := eval_f en m b in
             let* vb := cond_value ob in Ok (of_bool vb)
    | ECond a b d =>
        let* oa := eval_f en m a in
        let* va := cond_value oa in
        if va then eval_f en m b else eval_f en m d
    | ECast t a =>
        let* o := eval_f en m a in
        let* p := scalar o in
        let* z := convert c (fst p) t (snd p) in Ok (rv t z)
    | EMin t a b =>
        let* oa := eval_f en m a in
        let* pa := scalar oa in
        let* ob := eval_f en m b in
        let* pb := scalar ob in
        minmax c false t (fst pa) (snd pa) (fst pb) (snd pb)
    | EMax t a b =>
        let* oa := eval_f en m a in
        let* pa := scalar oa in
        let* ob := eval_f en m b in
        let* pb := scalar ob in
        minmax c true t (fst pa) (snd pa) (fst pb) (snd pb)
    | ECall f a => let* o := eval_f en m a in callf f o
    end.

  Fixpoint eval_path_f (en : env) (m : memory) (p : list expr) : res (list Z) :=
    match p with
    | [] => Ok []
    | e :: p' =>
        let* o := eval_f en m e in
        let* k := int_value o in
        let* ks := eval_path_f en m p' in Ok (k :: ks)
    end.
End Expr.

Section Stmt.
  Variable x : contraction.
  Variable c : cfg.
  Variable callf : string -> obj -> res obj.
  Variable fuel : nat.

  Fixpoint exec_f (s : stmt) (en : env) (m : memory) : res ctl :=
    match s with
    | SSkip => Ok (Normal en m)
    | SSeq s1 s2 =>
        let* r := exec_f s1 en m in
        match r with
        | Normal en' m' => exec_f s2 en' m'
        | Returned _ _ => Ok r
        end
    | SDecl t y None => Ok (Normal ((y, fresh t) :: en) m)
    | SDecl t y (Some e) =>
        let* o := eval_f x c callf en m e in
        let* o' := init_obj c t o in
        Ok (Normal ((y, o') :: en) m)
    | SAssign y path e =>
        let* ks := eval_path_f x c callf en m path in
        let* v := eval_f x c callf en m e in
        let* r := assign c en m y ks v in
        Ok (Normal (fst r) (snd r))
    | SIf e s1 s2 =>
        let* o := eval_f x c callf en m e in
        let* b := cond_value o in
        let* r := (if b then exec_f s1 en m else exec_f s2 en m) in
        Ok (pop_ctl (List.length en) r)
    | SFor t i init cond next body =>
        let* o := eval_f x c callf en m init in
        let* o' := init_obj c (TScal t) o in
        let en0 := (i, o') :: en in
        let* r :=
          loop fuel
            (fun en m => let* o := eval_f x c callf en m cond in cond_value o)
            (fun en m =>
               let* r := exec_f body en m in
               match pop_ctl (List.length en) r with
               | Normal en' m' =>
                   let* v := eval_f x c callf en' m' next in
                   let* r := assign c en' m' i [] v in
                   Ok (Normal (fst r) (snd r))
               | Returned v m' => Ok (Returned v m')
               end)
            en0 m in
        Ok (pop_ctl (List.length en) r)
    | SMemcpy dst src n =>
        let* o := eval_f x c callf en m n in
        let* k := int_value o in
        match lookup dst en, lookup src en with
        | Some od, Some os =>
            let* od' := memcpy_obj od os k in
            Ok (Normal (update dst od' en) m)
        | _, _ => Err EStuck
        end
    | SAbort => Err EAbort
    | SReturn e => let* o := eval_f x c callf en m e in Ok (Returned o m)
    end.

  Definition run_body_f (f : func) (args : list obj) (m : memory) : res (option obj * memory) :=
    let* en := bind_params c (f_params f) args in
    let* r := exec_f (f_body f) en m in
    match r, f_ret f with
    | Returned _ _, TVoid => Err EStuck
    | Returned v m', t => let* v' := init_obj c t v in Ok (Some v', m')
    | Normal _ m', TVoid => Ok (None, m')
    | Normal _ _, _ => Err (EUB MissingReturn)
    end.
End Stmt.

Fixpoint call_helper_f (x : contraction) (c : cfg) (prog : list func) (fuel : nat) (depth : nat)
  (name : string) (a : obj) : res obj :=
  match depth with
  | O => Err EStuck
  | S d =>
      match find (fun f => String.eqb (f_name f) name) prog with
      | None => Err EStuck
      | Some f =>
          let* r := run_body_f x c (call_helper_f x c prog fuel d) fuel f [a] [] in
          match fst r with Some v => Ok v | None => Err EStuck end
      end
  end.

(** A call, with contraction [x]. *)
Definition run_contracted (x : contraction) (c : cfg) (m : memory) (f : func) (args : list obj) : outcome :=
  outcome_of (run_body_f x c (call_helper_f x c helpers loop_fuel call_depth) loop_fuel f args m).
