(** The interpreter of Interp.v with the order of evaluation left open.

    C++11 does not say in which order the operands of an operator, the operands of
    a subscript, or the two sides of an assignment are evaluated
    ([intro.execution]/15).  Interp.v goes from left to right (and evaluates the
    left side of an assignment first).  Here the order is chosen, at every
    evaluation of every expression and statement, by a function of the expression
    and of the state it is evaluated in.  Everything else is as in Interp.v, whose
    definitions (conversions, operators, memory, assignment, loops) are used. *)
From Coq Require Import ZArith List String Bool.
From Verif Require Import Types Syntax Interp ProgRecip.
Import ListNotations.
Open Scope Z_scope.

(** [true]: right to left. *)
Record order := mkorder {
  of_expr : env -> memory -> expr -> bool;
  of_stmt : env -> memory -> stmt -> bool
}.

(** Both results, the second computed first if [swap]: an error in the one that is
    computed first prevents the other. *)
Definition both {A B} (swap : bool) (x : res A) (y : res B) : res (A * B) :=
  if swap then let* b := y in let* a := x in Ok (a, b)
  else let* a := x in let* b := y in Ok (a, b).

Section Expr.
  Variable w : order.
  Variable c : cfg.
  Variable callf : string -> obj -> res obj.

  Fixpoint eval_w (en : env) (m : memory) (e : expr) : res obj :=
    let value (r : res obj) := let* o := r in scalar o in
    match e with
    | ELit t z => Ok (rv t z)
    | EVar x => match lookup x en with Some o => Ok o | None => Err EStuck end
    | EIdx a i =>
        let* p := both (of_expr w en m e) (eval_w en m a) (let* o := eval_w en m i in int_value o) in
        index m (fst p) (snd p)
    | EUn op a =>
        let* p := value (eval_w en m a) in unary c op (fst p) (snd p)
    | EBin op a b =>
        let* p := both (of_expr w en m e) (value (eval_w en m a)) (value (eval_w en m b)) in
        binary c op (fst (fst p)) (snd (fst p)) (fst (snd p)) (snd (snd p))
    | EAndAlso a b =>            (* sequenced: [expr.log.and] *)
        let* oa := eval_w en m a in
        let* va := cond_value oa in
        if va then let* ob := eval_w en m b in
                   let* vb := cond_value ob in Ok (of_bool vb)
        else Ok (of_bool false)
    | EOrElse a b =>             (* sequenced: [expr.log.or] *)
        let* oa := eval_w en m a in
        let* va := cond_value oa in
        if va then Ok (of_bool true)
        else let* ob := eval_w en m b in
             let* vb := cond_value ob in Ok (of_bool vb)
    | ECond a b d =>             (* sequenced: [expr.cond] *)
        let* oa := eval_w en m a in
        let* va := cond_value oa in
        if va then eval_w en m b else eval_w en m d
    | ECast t a =>
        let* p := value (eval_w en m a) in
        let* z := convert c (fst p) t (snd p) in Ok (rv t z)
    | EMin t a b =>
        let* p := both (of_expr w en m e) (value (eval_w en m a)) (value (eval_w en m b)) in
        minmax c false t (fst (fst p)) (snd (fst p)) (fst (snd p)) (snd (snd p))
    | EMax t a b =>
        let* p := both (of_expr w en m e) (value (eval_w en m a)) (value (eval_w en m b)) in
        minmax c true t (fst (fst p)) (snd (fst p)) (fst (snd p)) (snd (snd p))
    | ECall f a => let* o := eval_w en m a in callf f o
    end.

  (** The indices of an assignment's left side. *)
  Fixpoint eval_path_w (en : env) (m : memory) (p : list expr) : res (list Z) :=
    match p with
    | [] => Ok []
    | e :: p' =>
        let* q := both (of_expr w en m e)
                    (let* o := eval_w en m e in int_value o) (eval_path_w en m p') in
        Ok (fst q :: snd q)
    end.
End Expr.

Section Stmt.
  Variable w : order.
  Variable c : cfg.
  Variable callf : string -> obj -> res obj.
  Variable fuel : nat.

  Fixpoint exec_w (s : stmt) (en : env) (m : memory) : res ctl :=
    match s with
    | SSkip => Ok (Normal en m)
    | SSeq s1 s2 =>
        let* r := exec_w s1 en m in
        match r with
        | Normal en' m' => exec_w s2 en' m'
        | Returned _ _ => Ok r
        end
    | SDecl t x None => Ok (Normal ((x, fresh t) :: en) m)
    | SDecl t x (Some e) =>
        let* o := eval_w w c callf en m e in
        let* o' := init_obj c t o in
        Ok (Normal ((x, o') :: en) m)
    | SAssign x path e =>
        let* p := both (of_stmt w en m s) (eval_path_w w c callf en m path) (eval_w w c callf en m e) in
        let* r := assign c en m x (fst p) (snd p) in
        Ok (Normal (fst r) (snd r))
    | SIf e s1 s2 =>
        let* o := eval_w w c callf en m e in
        let* b := cond_value o in
        let* r := (if b then exec_w s1 en m else exec_w s2 en m) in
        Ok (pop_ctl (List.length en) r)
    | SFor t i init cond next body =>
        let* o := eval_w w c callf en m init in
        let* o' := init_obj c (TScal t) o in
        let en0 := (i, o') :: en in
        let* r :=
          loop fuel
            (fun en m => let* o := eval_w w c callf en m cond in cond_value o)
            (fun en m =>
               let* r := exec_w body en m in
               match pop_ctl (List.length en) r with
               | Normal en' m' =>
                   let* v := eval_w w c callf en' m' next in
                   let* r := assign c en' m' i [] v in
                   Ok (Normal (fst r) (snd r))
               | Returned v m' => Ok (Returned v m')
               end)
            en0 m in
        Ok (pop_ctl (List.length en) r)
    | SMemcpy dst src n =>
        let* o := eval_w w c callf en m n in
        let* k := int_value o in
        match lookup dst en, lookup src en with
        | Some od, Some os =>
            let* od' := memcpy_obj od os k in
            Ok (Normal (update dst od' en) m)
        | _, _ => Err EStuck
        end
    | SAbort => Err EAbort
    | SReturn e => let* o := eval_w w c callf en m e in Ok (Returned o m)
    end.

  Definition run_body_w (f : func) (args : list obj) (m : memory) : res (option obj * memory) :=
    let* en := bind_params c (f_params f) args in
    let* r := exec_w (f_body f) en m in
    match r, f_ret f with
    | Returned _ _, TVoid => Err EStuck
    | Returned v m', t => let* v' := init_obj c t v in Ok (Some v', m')
    | Normal _ m', TVoid => Ok (None, m')
    | Normal _ _, _ => Err (EUB MissingReturn)
    end.
End Stmt.

Fixpoint call_helper_w (w : order) (c : cfg) (prog : list func) (fuel : nat) (depth : nat)
  (name : string) (a : obj) : res obj :=
  match depth with
  | O => Err EStuck
  | S d =>
      match find (fun f => String.eqb (f_name f) name) prog with
      | None => Err EStuck
      | Some f =>
          let* r := run_body_w w c (call_helper_w w c prog fuel d) fuel f [a] [] in
          match fst r with Some v => Ok v | None => Err EStuck end
      end
  end.

(** A call, evaluated in order [w]. *)
Definition run_in_order (w : order) (c : cfg) (m : memory) (f : func) (args : list obj) : outcome :=
  outcome_of (run_body_w w c (call_helper_w w c helpers loop_fuel call_depth) loop_fuel f args m).
