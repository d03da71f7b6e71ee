(** The same language, one statement at a time.  [Interp] gives the meaning of a whole call; here a
    call is a sequence of steps, so that threads can be interleaved between any two of them. *)
From Coq Require Import ZArith String List Bool.
From Verif Require Import Types Syntax Interp ProgRecip Library Client.
Import ListNotations.
Open Scope Z_scope.

(** What a call still has to do, innermost first. *)
Inductive frame :=
| FStmt (s : stmt)                                      (* execute [s] *)
| FPop (n : nat)                                        (* leave a block that was entered with [n] variables *)
| FTest (i : string) (cond next : expr) (body : stmt)   (* test the condition of a loop *)
| FNext (i : string) (next : expr).                     (* i = next *)

Section Small.
  Variable c : cfg.

  (** Expressions are evaluated in one step; the helpers they call do not access memory. *)
  Definition evaluate (en : env) (m : memory) (e : expr) : res obj :=
    eval c (call_helper c helpers loop_fuel call_depth) en m e.
  Definition evaluate_path (en : env) (m : memory) (p : list expr) : res (list Z) :=
    eval_path c (call_helper c helpers loop_fuel call_depth) en m p.

  (** One step inside a call.  Not stuck, but for the end of the body and [return], which [advance] treats. *)
  Definition small (k : list frame) (en : env) (m : memory) : res (list frame * env * memory) :=
    match k with
    | [] => Err EStuck
    | FPop n :: k' => Ok (k', pop n en, m)
    | FTest i cond next body :: k' =>
        let* o := evaluate en m cond in
        let* b := cond_value o in
        Ok (if b then FStmt body :: FPop (List.length en) :: FNext i next :: k else k', en, m)
    | FNext i next :: k' =>
        let* v := evaluate en m next in
        let* r := assign c en m i [] v in Ok (k', fst r, snd r)
    | FStmt s :: k' =>
        match s with
        | SSkip => Ok (k', en, m)
        | SSeq s1 s2 => Ok (FStmt s1 :: FStmt s2 :: k', en, m)
        | SDecl t x None => Ok (k', (x, fresh t) :: en, m)
        | SDecl t x (Some e) =>
            let* o := evaluate en m e in
            let* o' := init_obj c t o in Ok (k', (x, o') :: en, m)
        | SAssign x path e =>
            let* ks := evaluate_path en m path in
            let* v := evaluate en m e in
            let* r := assign c en m x ks v in Ok (k', fst r, snd r)
        | SIf e s1 s2 =>
            let* o := evaluate en m e in
            let* b := cond_value o in
            Ok (FStmt (if b then s1 else s2) :: FPop (List.length en) :: k', en, m)
        | SFor t i init cond next body =>
            let* o := evaluate en m init in
            let* o' := init_obj c (TScal t) o in
            Ok (FTest i cond next body :: FPop (List.length en) :: k', (i, o') :: en, m)
        | SMemcpy dst src n =>
            let* o := evaluate en m n in
            let* j := int_value o in
            match lookup dst en, lookup src en with
            | Some od, Some os => let* od' := memcpy_obj od os j in Ok (k', update dst od' en, m)
            | _, _ => Err EStuck
            end
        | SAbort => Err EAbort
        | SReturn _ => Err EStuck
        end
    end.
End Small.

(** A thread is between two calls, or inside one: it still has to do [k] with the variables [en], and
    goes on with [next]. *)
Inductive thread : Type :=
| Between (p : program)
| Inside (f : func) (k : list frame) (en : env) (next : option obj -> program).

(** One step of a thread. *)
Definition advance (c : cfg) (m : memory) (th : thread) : res (memory * thread) :=
  match th with
  | Between Finish => Err EStuck
  | Between (Call f args next) =>
      let* en := bind_params c (f_params f) args in Ok (m, Inside f [FStmt (f_body f)] en next)
  | Inside f [] en next =>
      match f_ret f with
      | TVoid => Ok (m, Between (next None))
      | _ => Err (EUB MissingReturn)
      end
  | Inside f (FStmt (SReturn e) :: _) en next =>
      let* o := evaluate c en m e in
      match f_ret f with
      | TVoid => Err EStuck
      | t => let* o' := init_obj c t o in Ok (m, Between (next (Some o')))
      end
  | Inside f k en next =>
      let* r := small c k en m in Ok (snd r, Inside f (fst (fst r)) (snd (fst r)) next)
  end.

(** Any number of steps of one thread that runs alone. *)
Inductive advances (c : cfg) : memory * thread -> memory * thread -> Prop :=
| advances_refl s : advances c s s
| advances_step m th m1 th1 s : advance c m th = Ok (m1, th1) -> advances c (m1, th1) s -> advances c (m, th) s.

(** One of the threads takes a step. *)
Inductive fine_step (c : cfg) : memory * list thread -> memory * list thread -> Prop :=
| fine_one m ts1 th ts2 m' th' : advance c m th = Ok (m', th') ->
    fine_step c (m, ts1 ++ th :: ts2) (m', ts1 ++ th' :: ts2).

Inductive fine_steps (c : cfg) : memory * list thread -> memory * list thread -> Prop :=
| fine_refl s : fine_steps c s s
| fine_more s s' s'' : fine_steps c s s' -> fine_step c s' s'' -> fine_steps c s s''.

Definition over (ts : list thread) : Prop := Forall (fun th => th = Between Finish) ts.

(** ** How often a step accesses memory *)

(** The number of times the text of [e] mentions variable [p]. *)
Fixpoint mentions (p : string) (e : expr) : nat :=
  match e with
  | ELit _ _ => 0
  | EVar x => if String.eqb x p then 1 else 0
  | EIdx a b | EBin _ a b | EAndAlso a b | EOrElse a b | EMin _ a b | EMax _ a b => mentions p a + mentions p b
  | EUn _ a | ECast _ a | ECall _ a => mentions p a
  | ECond a b d => mentions p a + mentions p b + mentions p d
  end.

(** No step of [s] mentions [p] more than once. *)
Fixpoint once (p : string) (s : stmt) : bool :=
  let le1 n := Nat.leb n 1 in
  match s with
  | SSkip | SAbort | SMemcpy _ _ _ => true
  | SSeq a b => once p a && once p b
  | SDecl _ _ None => true
  | SDecl _ _ (Some e) => le1 (mentions p e)
  | SAssign x path e =>
      le1 ((if String.eqb x p then 1 else 0) + fold_right Nat.add 0%nat (map (mentions p) path) + mentions p e)%nat
  | SIf e a b => le1 (mentions p e) && once p a && once p b
  | SFor _ _ a b d body => le1 (mentions p a) && le1 (mentions p b) && le1 (mentions p d) && once p body
  | SReturn e => le1 (mentions p e)
  end.

(** ** Data races *)

Section Accesses.
  Variable c : cfg.

  (** The elements the evaluation of [e] reads, in order. *)
  Fixpoint reads (en : env) (m : memory) (e : expr) : list (nat * Z) :=
    match e with
    | ELit _ _ | EVar _ => []
    | EIdx a i =>
        reads en m a ++ reads en m i ++
        match evaluate c en m a, (let* o := evaluate c en m i in int_value o) with
        | Ok (OPtr _ b off), Ok k => [(b, off + k)]
        | _, _ => []
        end
    | EUn _ a | ECast _ a | ECall _ a => reads en m a
    | EBin _ a b | EMin _ a b | EMax _ a b => reads en m a ++ reads en m b
    | EAndAlso a b =>
        reads en m a ++
        match (let* o := evaluate c en m a in cond_value o) with Ok true => reads en m b | _ => [] end
    | EOrElse a b =>
        reads en m a ++
        match (let* o := evaluate c en m a in cond_value o) with Ok false => reads en m b | _ => [] end
    | ECond a b d =>
        reads en m a ++
        match (let* o := evaluate c en m a in cond_value o) with Ok true => reads en m b | Ok false => reads en m d | _ => [] end
    end.

  (** The elements the next step of a thread reads, and those it writes. *)
  Definition step_reads (m : memory) (th : thread) : list (nat * Z) :=
    match th with
    | Inside _ (FStmt s :: _) en _ =>
        match s with
        | SDecl _ _ (Some e) => reads en m e
        | SAssign _ path e => flat_map (reads en m) path ++ reads en m e
        | SIf e _ _ | SFor _ _ e _ _ _ | SMemcpy _ _ e | SReturn e => reads en m e
        | _ => []
        end
    | Inside _ (FTest _ e _ _ :: _) en _ | Inside _ (FNext _ e :: _) en _ => reads en m e
    | _ => []
    end.

  Definition step_writes (m : memory) (th : thread) : list (nat * Z) :=
    match th with
    | Inside _ (FStmt (SAssign x path _) :: _) en _ =>
        match lookup x en, evaluate_path c en m path with
        | Some (OPtr _ b off), Ok [i] => [(b, off + i)]
        | _, _ => []
        end
    | _ => []
    end.

  (** The next steps of two threads conflict: both access the same element, and one of them writes it. *)
  Definition race (m : memory) (th th' : thread) : Prop :=
    exists x, In x (step_writes m th) /\ (In x (step_reads m th') \/ In x (step_writes m th')).
End Accesses.

(** The states a thread can be in during a call, whatever other threads do to memory between its steps. *)
Inductive during (c : cfg) (f : func) (args : list obj) (next : option obj -> program) : thread -> Prop :=
| during_enter m m' th : advance c m (Between (Call f args next)) = Ok (m', th) -> during c f args next th
| during_step m th m' g k en : during c f args next th -> advance c m th = Ok (m', Inside g k en next) ->
    during c f args next (Inside g k en next).
