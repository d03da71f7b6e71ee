(** What compiles, what links, and what initialiser lists give. *)
From Coq Require Import ZArith String List Bool Lia.
From Verif Require Import Types FloatBits FloatR Syntax Interp ProgRecip Library Header AbsSound MetaSpec P_Meta P_Header Frontend ExecLemmas Checked P_Checked.
From Verif Require SourceH Suite.
Import ListNotations.
Import Suite (texpr(..), tstmt(..)).
Open Scope Z_scope.

(** ** Names of types *)

Definition same_entry (l : list (string * ty)) (p : string * ty) : bool :=
  match assoc (fst p) l with Some t => same_type t (snd p) | None => false end.
Definition same_names (a b : list (string * ty)) : bool := forallb (same_entry a) b && forallb (same_entry b) a.
Lemma same_names_spec a b : same_names a b = true -> forall x, assoc x a = assoc x b.
Proof.
  intros H x. apply andb_prop in H. destruct H as [H1 H2]. rewrite forallb_forall in H1, H2.
  destruct (assoc x a) as [t|] eqn:A.
  - specialize (H2 (x, t) (assoc_in x a t A)). unfold same_entry in H2. cbn in H2. destruct (assoc x b) as [u|]; [|discriminate].
    apply same_type_spec in H2. now subst.
  - destruct (assoc x b) as [u|] eqn:B; [|reflexivity]. specialize (H1 (x, u) (assoc_in x b u B)). unfold same_entry in H1. cbn in H1.
    rewrite A in H1. discriminate.
Qed.
Definition opens {A} (P : A -> bool) (o : option A) : bool := match o with Some a => P a | None => false end.
Lemma opened {A} (P : A -> bool) (o : option A) : opens P o = true -> exists a, o = Some a /\ P a = true.
Proof. destruct o as [a|]; [|discriminate]. eauto. Qed.
Lemma opened_names (o : option (list (string * ty))) : opens (fun l => same_names l type_names) o = true ->
  exists l, o = Some l /\ forall x, assoc x l = assoc x type_names.
Proof. intros H. apply opened in H. destruct H as (l & E & H). exists l. split; [exact E|]. now apply same_names_spec. Qed.
Lemma names_checked : opens (fun l => same_names l type_names) (read_types SourceH.neon_sim_h) = true.
Proof. vm_compute. reflexivity. Qed.
Lemma types_of_header : exists l, read_types SourceH.neon_sim_h = Some l /\ forall x, assoc x l = assoc x type_names.
Proof. exact (opened_names _ names_checked). Qed.

Lemma distinct_check : forallb (fun p => forallb (fun q => negb (same_type (snd p) (snd q)) || String.eqb (fst p) (fst q)) struct_names) struct_names = true.
Proof. vm_compute. reflexivity. Qed.
Lemma distinct_types x y t : In (x, t) struct_names -> In (y, t) struct_names -> x = y.
Proof.
  intros H H'. pose proof (proj1 (forallb_forall _ _) distinct_check _ H) as C. cbv beta in C.
  pose proof (proj1 (forallb_forall _ _) C _ H') as D. cbn [fst snd] in D. rewrite same_type_refl in D. cbn in D. now apply String.eqb_eq.
Qed.

(** ** Types of expressions *)

Definition converts (t want : ty) : Prop := t = want \/ exists s s', t = TScal s /\ want = TScal s'.
Lemma usable_iff t want : usable t want = true <-> converts t want.
Proof.
  unfold converts. split.
  - destruct t as [|s|n t|l|s]; cbn [usable]; try (intros H; left; now apply same_type_spec).
    destruct want as [|s'| | |]; try (intros H; left; now apply same_type_spec). intros _. right. eauto.
  - intros [-> |(s & s' & -> & ->)]; [|reflexivity]. destruct want; try reflexivity; apply same_type_refl.
Qed.

Lemma declared_iff_in f r ps : declared f = Some (r, ps) <-> exists line, In (f, r, ps, line) header.
Proof.
  split; [apply declared_in|]. intros [line H]. destruct (declared f) as [[r' ps']|] eqn:D.
  - destruct (declared_in _ _ _ D) as [l' H']. destruct (header_consistent _ _ _ _ _ _ _ H H') as [-> ->]. reflexivity.
  - exfalso. unfold declared in D. destruct (find _ header) as [[[[n r'] ps'] l]|] eqn:E; [discriminate|].
    pose proof (find_none _ _ E _ H) as K. cbn in K. rewrite String.eqb_refl in K. discriminate.
Qed.

Fixpoint all_fit (en : scope) (ps : list ty) (args : list texpr) {struct args} : bool :=
  match ps, args with [], [] => true | p :: ps', a :: args' => fits en p a && all_fit en ps' args' | _, _ => false end.
Lemma fits_call en want f args :
  fits en want (XCall f args) = match declared f with Some (r, ps) => usable r want && all_fit en ps args | None => false end.
Proof.
  cbn [fits]. destruct (declared f) as [[r ps]|]; [|reflexivity]. f_equal. revert ps.
  induction args as [|a args IH]; intros [|p ps]; cbn [all_fit]; try reflexivity. now rewrite IH.
Qed.

Lemma of_type_fun : forall e en t, of_type en e t -> forall t', of_type en e t' -> t = t'.
Proof.
  intros e en t H t' H'. destruct H; inversion H'; subst; try congruence. destruct (header_consistent _ _ _ _ _ _ _ H H3) as [-> _]. reflexivity.
Qed.

Lemma fits_iff en : forall e want, fits en want e = true <-> exists t, of_type en e t /\ converts t want.
Proof.
  induction e as [x|z k|f args IH|x i|x|x] using texpr_ind'; intros want.
  - cbn [fits]. split.
    + destruct (assoc x en) as [[t|s]|] eqn:E; [| |discriminate].
      * intros U. exists t. split; [now constructor|]. now apply usable_iff.
      * destruct want as [| | | |s']; try discriminate. intros U. apply sty_eqb_spec in U. subst s'. exists (TPtr s). split; [now apply ty_array|]. now left.
    + intros (t & H & C). inversion H as [| |? ? E|? ? E| |]; subst; rewrite E; [now apply usable_iff|].
      destruct C as [<- |(s' & s2 & D & _)]; [apply sty_eqb_refl|discriminate].
  - cbn [fits]. destruct k as [k|]; split.
    + destruct want; try discriminate. intros U. exists (TScal F64). split; [now constructor|]. right. eauto.
    + intros (t & H & C). inversion H; subst. destruct C as [<- |(s' & s2 & D & ->)]; assumption.
    + destruct want; try discriminate. intros U. exists (TScal I32). split; [constructor; now apply in_rangeb_spec|]. right. eauto.
    + intros (t & H & C). inversion H; subst. destruct C as [<- |(s' & s2 & D & ->)]; now apply in_rangeb_spec.
  - rewrite fits_call.
    assert (K : forall ps, all_fit en ps args = true <-> arguments en args ps).
    { induction IH as [|a args Ha Hargs IHa]; intros [|p ps]; cbn [all_fit].
      - split; [constructor|reflexivity].
      - split; [discriminate|intros H; inversion H].
      - split; [discriminate|intros H; inversion H].
      - rewrite andb_true_iff, Ha, IHa. split.
        + intros [(t & H & C) A]. now apply (args_cons en a args t p ps).
        + intros H. inversion H as [|? ? t ? ? H1 H2 H3]; subst. split; [|exact H3]. exists t. now split. }
    split.
    + destruct (declared f) as [[r ps]|] eqn:D; [|discriminate]. intros H. apply andb_prop in H. destruct H as [U A].
      destruct (declared_in _ _ _ D) as [line I']. exists r. split; [|now apply usable_iff]. apply (ty_call en f args r ps line I'). now apply K.
    + intros (t & H & C). inversion H as [| | | | |? ? ? ps line I' A]; subst.
      rewrite (proj2 (declared_iff_in f t ps) (ex_intro _ line I')). apply andb_true_intro. split; [now apply usable_iff|now apply K].
  - cbn [fits]. split.
    + destruct (assoc x en) as [[[|?|n t|?|?]|?]|] eqn:E; try discriminate. intros U. exists t. split; [now apply (ty_lane en x n)|now apply usable_iff].
    + intros (t & H & C). inversion H as [| | | |? n ? ? E|]; subst. rewrite E. now apply usable_iff.
  - split; [discriminate|intros (t & H & _); inversion H].
  - split; [discriminate|intros (t & H & _); inversion H].
Qed.

Lemma init_iff en t x e ty : object_type t = Some ty ->
  ((exists en', check (TInit t x e) en = Some en') <-> exists u, of_type en e u /\ converts u ty).
Proof.
  intros T. cbn [check]. rewrite T, <- fits_iff. destruct (fits en ty e); split; intros H; eauto; try discriminate. destruct H; discriminate.
Qed.
Lemma call_iff en f args : (exists en', check (TDo (XCall f args)) en = Some en') <-> exists u, of_type en (XCall f args) u.
Proof.
  cbn [check]. destruct (declared f) as [[r ps]|] eqn:D.
  - assert (K : fits en r (XCall f args) = true <-> exists u, of_type en (XCall f args) u).
    { rewrite fits_iff. split; [intros (t & H & _); eauto|]. intros (u & H). exists u. split; [exact H|]. left.
      inversion H as [| | | | |? ? ? ps' line I' A]; subst. pose proof (proj2 (declared_iff_in f u ps') (ex_intro _ line I')). congruence. }
    rewrite <- K. destruct (fits en r (XCall f args)); split; intros H; eauto; try discriminate. destruct H; discriminate.
  - split; [intros [? H]; discriminate|]. intros (u & H). inversion H as [| | | | |? ? ? ps' line I' A]; subst.
    pose proof (proj2 (declared_iff_in f u ps') (ex_intro _ line I')). congruence.
Qed.

Lemma arguments_nth en args ps : arguments en args ps -> length args = length ps /\
  forall i a p, nth_error args i = Some a -> nth_error ps i = Some p -> exists t, of_type en a t /\ converts t p.
Proof.
  induction 1 as [|a l t p ps H C A [L IH]]; [split; [reflexivity|intros [|?]; discriminate]|]. split; [cbn; congruence|].
  intros [|i] a' p'; cbn; [|apply IH]. intros [= <-] [= <-]. exists t. now split.
Qed.

(** A vector, tuple or array where something else is wanted. *)
Lemma mismatch_rejected f r ps line args en i x k t p : In (f, r, ps, line) header ->
  nth_error args i = Some (XVar x) -> assoc x en = Some k -> t = match k with KObj u => u | KArr s => TPtr s end ->
  nth_error ps i = Some p -> t <> p -> (forall s, t <> TScal s) ->
  check (TDo (XCall f args)) en = None /\ forall u y, check (TInit u y (XCall f args)) en = None.
Proof.
  intros I' Na Ak Et Np Ne Ns.
  assert (N : forall u, ~ of_type en (XCall f args) u).
  { intros u H. inversion H as [| | | | |? ? ? ps' line' I2 A]; subst. destruct (header_consistent _ _ _ _ _ _ _ I' I2) as [-> ->].
    destruct (arguments_nth en args ps' A) as [_ Q]. destruct (Q i _ p Na Np) as (t' & H1 & [-> |(s & s' & -> & _)]).
    - inversion H1 as [| |? ? E|? ? E| |]; subst; rewrite Ak in E; injection E as ->; now apply Ne.
    - inversion H1 as [| |? ? E|? ? E| |]; subst; rewrite Ak in E; injection E as ->. now apply (Ns s). }
  split.
  - destruct (check _ en) as [en'|] eqn:C; [|reflexivity]. destruct (proj1 (call_iff en f args) (ex_intro _ en' C)) as [u H]. now apply N in H.
  - intros u y. destruct (check _ en) as [en'|] eqn:C; [|reflexivity]. destruct (object_type u) as [ty|] eqn:T.
    + destruct (proj1 (init_iff en u y _ ty T) (ex_intro _ en' C)) as (v & H & _). now apply N in H.
    + cbn [check] in C. rewrite T in C. discriminate.
Qed.

(** ** Linking *)

Lemma fits_declared en : forall e want, fits en want e = true -> Forall (fun f => exists d, declared f = Some d) (Suite.calls e).
Proof.
  induction e as [x|z k|f args IH|x i|x|x] using texpr_ind'; intros want; [intros _; constructor|intros _; constructor| |intros _; constructor|intros _; constructor|intros _; constructor].
  rewrite fits_call. destruct (declared f) as [[r ps]|] eqn:D; [|discriminate]. intros H. apply andb_prop in H. destruct H as [_ A].
  cbn [Suite.calls]. constructor; [eauto|]. clear D r. revert ps A. induction IH as [|a args Ha Hargs IHa]; intros [|p ps] A; cbn [all_fit flat_map] in *; try discriminate; [constructor|].
  apply andb_prop in A. destruct A as [A1 A2]. apply Forall_app. split; [exact (Ha p A1)|exact (IHa ps A2)].
Qed.
Lemma list_declared en t l : forallb (fits en t) l = true -> Forall (fun f => exists d, declared f = Some d) (flat_map Suite.calls l).
Proof.
  induction l as [|e l IH]; cbn [forallb flat_map]; intros H; [constructor|]. apply andb_prop in H. destruct H as [H1 H2].
  apply Forall_app. split; [exact (fits_declared en e t H1)|exact (IH H2)].
Qed.

Lemma check_declared : forall s en en', check s en = Some en' -> Forall (fun f => exists d, declared f = Some d) (Suite.called s).
Proof.
  intros s. pattern s. apply tstmt_ind'; clear s; [intros s|intros l IH].
  - destruct s; try exact I; intros en en' C; cbn [check Suite.called] in *; try discriminate C; try constructor.
    + destruct (object_type t) as [ty|] eqn:T; [|discriminate]. destruct (braces_fit en ty l) eqn:B; [|discriminate].
      pose proof (object_plain t ty T) as P. destruct ty as [| |n u| |]; try discriminate B. destruct (braces_fits en n u l P B) as [_ F]. exact (list_declared en u l F).
    + destruct (object_type t) as [ty|] eqn:T; [|discriminate]. destruct (fits en ty e) eqn:F; [|discriminate]. exact (fits_declared en e ty F).
    + destruct (object_type t) as [[|s| | |]|] eqn:T; try discriminate. destruct (elements_fit _ _ _ _) eqn:B in C; [|discriminate].
      destruct (elements_fits _ _ _ _ B) as [_ F]. exact (list_declared en (TScal s) l F).
    + destruct e as [|? ?|f args|? ?|?|?]; try discriminate C. destruct (declared f) as [[r ps]|] eqn:D; [|discriminate].
      destruct (fits en r (XCall f args)) eqn:F; [|discriminate]. exact (fits_declared en _ r F).
  - intros en en' C. cbn [check Suite.called] in *.
    match type of C with match ?x with _ => _ end = _ => destruct x as [sc1|] eqn:E; [|discriminate] end. clear C en'.
    revert en E. induction IH as [|s l Hs Hl IHl]; intros en E; [constructor|]. destruct (check s en) as [en2|] eqn:C; [|discriminate].
    cbn [flat_map]. apply Forall_app. split; [exact (Hs en en2 C)|exact (IHl en2 E)].
Qed.
Lemma check_all_declared : forall l en en', check_all l en = Some en' -> Forall (fun f => exists d, declared f = Some d) (flat_map Suite.called l).
Proof.
  induction l as [|s l IH]; intros en en' C; [constructor|]. cbn [check_all] in C. destruct (check s en) as [en2|] eqn:E; [|discriminate].
  cbn [flat_map]. apply Forall_app. split; [exact (check_declared s en en2 E)|exact (IH en2 en' C)].
Qed.

Lemma mismatched_check : forallb (fun f => negb (found f)) mismatched = true.
Proof. vm_compute. reflexivity. Qed.
Lemma found_iff f d : declared f = Some d -> (found f = true <-> In f (map f_name library) /\ ~ In f mismatched).
Proof.
  intros D. destruct d as [r ps]. split.
  - intros H. split.
    + unfold found in H. rewrite D in H. destruct (linked f r ps) as [fn|] eqn:L; [|discriminate]. destruct (linked_spec _ _ _ _ L) as (I' & <- & _).
      now apply in_map.
    + intros M. pose proof (proj1 (forallb_forall _ _) mismatched_check f M) as K. cbv beta in K. now rewrite H in K.
  - intros [N M]. destruct (declared_in _ _ _ D) as [line I']. destruct (defined_as_declared f r ps line I' N M) as (fn & If & E1 & E2 & E3).
    unfold found. rewrite D. destruct (linked f r ps) as [g|] eqn:L; [reflexivity|]. exfalso. unfold linked in L. pose proof (find_none _ _ L fn If) as K.
    cbv beta in K. rewrite E1, E2, E3, String.eqb_refl, same_type_refl, same_types_refl in K. discriminate.
Qed.
Lemma links_iff l : compiles l = true ->
  (links l = true <-> forall f, In f (flat_map Suite.called l) -> In f (map f_name library) /\ ~ In f mismatched).
Proof.
  unfold compiles. destruct (check_all l []) as [en|] eqn:C; [intros _|discriminate]. pose proof (check_all_declared l [] en C) as D.
  rewrite Forall_forall in D. unfold links. rewrite forallb_forall. split; intros H f Hf; destruct (D f Hf) as [d Hd]; apply (found_iff f d Hd); now apply H.
Qed.

(** ** Initialiser lists *)


Lemma list_compiles t x s n l en : object_type t = Some (tvec s n) -> is_float s = false ->
  ((exists en', check (TList t x (literals l)) en = Some en') <->
   (length l <= n)%nat /\ Forall (fun z => in_range s z /\ in_range I32 z) l).
Proof.
  intros T F. cbn [check]. rewrite T. cbn [braces_fit tvec elements_fit].
  assert (K : elements_fit en s n (literals l) = true <-> (length l <= n)%nat /\ Forall (fun z => in_range s z /\ in_range I32 z) l).
  { unfold elements_fit, literals. rewrite andb_true_iff, Nat.leb_le, map_length, forallb_forall, Forall_forall.
    split; intros [H1 H2]; (split; [exact H1|]).
    - intros z Hz. pose proof (H2 _ (in_map (fun z => XNum z None) l z Hz)) as Q. unfold listed in Q. rewrite F in Q. apply andb_prop in Q. destruct Q as [Q1 Q2].
      cbn [fits] in Q1. split; now apply in_rangeb_spec.
    - intros e He. apply in_map_iff in He. destruct He as (z & <- & Hz). destruct (H2 z Hz) as [Q1 Q2]. unfold listed. rewrite F. cbn [fits].
      apply andb_true_intro. split; now apply in_rangeb_spec. }
  rewrite <- K. unfold tvec. cbn [braces_fit]. destruct (elements_fit en s n (literals l)); split; intros H; eauto; try discriminate. destruct H; discriminate.
Qed.

Lemma eval_literals c en m s : is_float s = false -> forall n l, (length l <= n)%nat -> Forall (in_range s) l ->
  eval_list c en m (TScal s) n (literals l) = Fine (map (rv s) (l ++ repeat 0 (n - length l)), m).
Proof.
  intros F. induction n as [|n IH]; intros [|z l] Ln A; cbn [literals map eval_list app length] in *; try reflexivity; try lia.
  - pose proof (IH [] ltac:(cbn; lia) (Forall_nil _)) as E. cbn [literals map] in E. rewrite E. cbn [after app]. rewrite !Nat.sub_0_r. reflexivity.
  - inversion A as [|? ? Rz A']; subst. cbn [eval adapt rv]. unfold convert. rewrite F.
    assert (E : of_res (if sty_eqb I32 s then Ok z else if is_float I32 then if false then Ok (encode s (nan_of c FCvt s z z) (sf_cvt s (decode I32 z)))
        else match sf_trunc (decode I32 z) with Some i => if in_rangeb s i then Ok i else Err (EUB FloatCast) | None => Err (EUB FloatCast) end
        else Ok (wrap s z)) = Fine z).
    { destruct (sty_eqb I32 s); [reflexivity|]. cbn. now rewrite (wrap_id s z Rz). }
    rewrite E. cbn [after]. fold (literals l). rewrite (IH l ltac:(lia) A'). cbn [after]. reflexivity.
Qed.

Lemma list_runs c t x s n l en m : object_type t = Some (tvec s n) -> is_float s = false -> (length l <= n)%nat -> Forall (in_range s) l ->
  exec c (TList t x (literals l)) (en, m) = Fine ((x, VObj (tvec s n) (vec s (l ++ repeat 0 (n - length l)))) :: en, m).
Proof.
  intros T F L A. cbn [exec]. rewrite T. cbn [or_none after tvec]. unfold tvec. cbn [or_none after]. rewrite (eval_literals c en m s F n l L A). reflexivity.
Qed.

(** ** For the theorems *)

Lemma agree_declared m k v : agree m k v -> as_declared m k v.
Proof.
  intros [E A]. split; [exact E|]. destruct (snd k) as [t|s], (snd v) as [t' o|s' b]; try contradiction.
  - destruct A as (<- & _ & H). eauto.
  - destruct A as (<- & cells & H). eauto.
Qed.
Lemma good_meaning en (r : result state) : good (state_ok [] en) r ->
  match r with
  | Fine (vs, m) => Forall2 (as_declared m) en vs /\ well_typed m
  | Stopped | Behaviour _ => True
  | Meaningless => False
  end.
Proof.
  destruct r as [[vs m]| |k|]; auto. intros (G1 & G2 & _). cbn [fst snd] in *. split; [|exact G2].
  clear -G1. induction G1; constructor; [now apply agree_declared|assumption].
Qed.
Lemma meaning c l en : check_all l [] = Some en -> links l = true ->
  match execute c l with
  | Fine (vs, m) => Forall2 (as_declared m) en vs /\ well_typed m
  | Stopped | Behaviour _ => True
  | Meaningless => False
  end.
Proof. intros C L. apply good_meaning. exact (exec_all_good c l [] en [] [] C (Forall2_nil _) (Forall_nil _) L). Qed.

Lemma struct_objects : forallb (fun p => match object_type (fst p) with Some t => same_type t (snd p) | None => false end) struct_names = true.
Proof. vm_compute. reflexivity. Qed.
Lemma struct_object x t : In (x, t) struct_names -> object_type x = Some t.
Proof.
  intros H. pose proof (proj1 (forallb_forall _ _) struct_objects _ H) as C. cbv beta in C. cbn [fst snd] in C.
  destruct (object_type x) as [u|]; [|discriminate]. now rewrite (same_type_spec _ _ C).
Qed.
Lemma struct_not_scalar : forallb (fun p => match snd p with TScal _ => false | _ => true end) struct_names = true.
Proof. vm_compute. reflexivity. Qed.
Lemma conversion_rejected x tx y ty en a b : In (x, tx) struct_names -> In (y, ty) struct_names -> x <> y -> assoc a en = Some (KObj tx) ->
  check (TInit y b (XVar a)) en = None.
Proof.
  intros Hx Hy N A. cbn [check]. rewrite (struct_object y ty Hy). destruct (fits en ty (XVar a)) eqn:F; [|reflexivity]. exfalso.
  cbn [fits] in F. rewrite A in F. apply usable_iff in F. destruct F as [-> |(s & s' & -> & _)].
  - apply N. now apply (distinct_types x y ty).
  - now pose proof (proj1 (forallb_forall _ _) struct_not_scalar _ Hx).
Qed.
Lemma any_lane z : in_range I32 z ->
  check (TInit "float32_t" "x" (XCall "vgetq_lane_f32" [XVar "v"; XNum z None])) [("v"%string, KObj (tvec F32 4))] =
  Some [("x"%string, KObj (TScal F32)); ("v"%string, KObj (tvec F32 4))].
Proof.
  intros H. cbn [check]. replace (object_type "float32_t") with (Some (TScal F32)) by (vm_compute; reflexivity).
  rewrite fits_call. replace (declared "vgetq_lane_f32") with (Some (TScal F32, [tvec F32 4; TScal I32])) by (vm_compute; reflexivity).
  cbn [all_fit fits usable]. change (assoc "v" [("v"%string, KObj (tvec F32 4))]) with (Some (KObj (tvec F32 4))). cbn [usable]. 
  rewrite (proj2 (in_rangeb_spec I32 z) H). reflexivity.
Qed.
