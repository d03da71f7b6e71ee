(** neon_sim.h against neon_sim.cpp. *)
From Coq Require Import ZArith Ascii String List Bool Lia FMapPositive.
From Verif Require Import Types Syntax Interp ProgRecip Library Header AbsSound MetaSpec.
Import ListNotations.

Fixpoint ty_eqb (a b : ty) {struct a} : bool :=
  match a, b with
  | TVoid, TVoid => true
  | TScal s, TScal s' | TPtr s, TPtr s' => sty_eqb s s'
  | TArr n t, TArr n' t' => Nat.eqb n n' && ty_eqb t t'
  | TStruct l, TStruct l' =>
      (fix go l l' := match l, l' with [], [] => true | x :: r, y :: r' => ty_eqb x y && go r r' | _, _ => false end) l l'
  | _, _ => false
  end.

Lemma sty_eqb_iff a b : sty_eqb a b = true <-> a = b.
Proof. split; [destruct a, b; (reflexivity || discriminate)|intros ->; destruct b; reflexivity]. Qed.

Lemma ty_eqb_spec a : forall b, ty_eqb a b = true <-> a = b.
Proof.
  induction a as [|s|n t IH|ts IH|s] using ty_ind'; intros [|s'|n' t'|ts'|s']; cbn; try (split; [discriminate|congruence]); try tauto.
  - rewrite sty_eqb_iff. split; congruence.
  - rewrite andb_true_iff, Nat.eqb_eq, IH. split; [intros []; congruence|intros E; injection E; auto].
  - assert (K : (fix go l l' := match l, l' with [], [] => true | x :: r, y :: r' => ty_eqb x y && go r r' | _, _ => false end) ts ts' = true <-> ts = ts').
    { revert ts'. induction IH as [|t ts H IH IH2]; intros [|t' ts']; try (split; [discriminate|congruence]); try tauto.
      rewrite andb_true_iff, H, IH2. split; [intros []; congruence|intros E; injection E; auto]. }
    rewrite K. split; congruence.
  - rewrite sty_eqb_iff. split; congruence.
Qed.

Fixpoint tys_eqb (l l' : list ty) : bool :=
  match l, l' with [], [] => true | x :: r, y :: r' => ty_eqb x y && tys_eqb r r' | _, _ => false end.
Lemma tys_eqb_spec l : forall l', tys_eqb l l' = true <-> l = l'.
Proof.
  induction l as [|t l IH]; intros [|t' l']; cbn; try (split; [discriminate|congruence]); try tauto.
  rewrite andb_true_iff, ty_eqb_spec, IH. split; [intros []; congruence|intros E; injection E; auto].
Qed.

Definition params (f : func) : list ty := map snd (f_params f).
Definition declares (f : func) (h : string * ty * list ty * Z) : bool :=
  String.eqb (f_name f) (fst (fst (fst h))) && ty_eqb (f_ret f) (snd (fst (fst h))) && tys_eqb (params f) (snd (fst h)).
Lemma declares_spec f h : declares f h = true <-> h = (f_name f, f_ret f, params f, snd h).
Proof.
  destruct h as [[[n r] ps] l]. unfold declares. cbn [fst snd].
  rewrite !andb_true_iff, String.eqb_eq, ty_eqb_spec, tys_eqb_spec. split; [intros [[-> ->] ->]; reflexivity|].
  intros E. injection E as -> -> ->. auto.
Qed.

Definition sig_eqb (a b : string * list ty) : bool := String.eqb (fst a) (fst b) && tys_eqb (snd a) (snd b).
Lemma sig_eqb_spec a b : sig_eqb a b = true <-> a = b.
Proof.
  destruct a, b. unfold sig_eqb. cbn. rewrite andb_true_iff, String.eqb_eq, tys_eqb_spec.
  split; [intros []; congruence|intros E; injection E; auto].
Qed.

Lemma declared_library :
  forallb (fun f => Bool.eqb (negb (existsb (sig_eqb (f_name f, params f)) undeclared)) (existsb (declares f) header)) library = true.
Proof. vm_compute. reflexivity. Qed.

Theorem declared_iff f : In f library ->
  (~ In (f_name f, map snd (f_params f)) undeclared <-> exists line, In (f_name f, f_ret f, map snd (f_params f), line) header).
Proof.
  intros I. pose proof (proj1 (forallb_forall _ _) declared_library f I) as H. cbv beta in H. apply eqb_prop in H.
  fold (params f). split.
  - intros N. destruct (existsb (declares f) header) eqn:E.
    + apply existsb_exists in E. destruct E as (h & Ih & D). apply declares_spec in D. exists (snd h). now rewrite <- D.
    + exfalso. apply N. apply negb_false_iff in H. apply existsb_exists in H. destruct H as (x & Ix & S).
      apply sig_eqb_spec in S. now rewrite S.
  - intros (line & Ih) N. assert (E : existsb (declares f) header = true).
    { apply existsb_exists. eexists. split; [exact Ih|]. apply declares_spec. reflexivity. }
    rewrite E in H. apply negb_true_iff in H. assert (K : existsb (sig_eqb (f_name f, params f)) undeclared = true); [|congruence].
    apply existsb_exists. eexists. split; [exact N|]. now apply sig_eqb_spec.
Qed.

Fixpoint distinct (l : list (string * list ty)) : bool :=
  match l with [] => true | x :: r => negb (existsb (sig_eqb x) r) && distinct r end.
Lemma distinct_spec l : distinct l = true -> NoDup l.
Proof.
  induction l as [|x l IH]; cbn; [constructor|]. rewrite andb_true_iff, negb_true_iff. intros [H1 H2]. constructor; auto.
  intros Hx. assert (K : existsb (sig_eqb x) l = true); [|congruence]. apply existsb_exists. exists x. split; [exact Hx|]. now apply sig_eqb_spec.
Qed.
Lemma defined_once : NoDup (map (fun f => (f_name f, map snd (f_params f))) library).
Proof. apply distinct_spec. vm_compute. reflexivity. Qed.

(** A table from names to types, so that no pair of entries has to be compared. *)
Fixpoint bools (l : list bool) (p : positive) : positive :=
  match l with [] => p | true :: r => xI (bools r p) | false :: r => xO (bools r p) end.
Fixpoint key (s : string) : positive :=
  match s with
  | EmptyString => xH
  | String (Ascii.Ascii b0 b1 b2 b3 b4 b5 b6 b7) r => bools [b0; b1; b2; b3; b4; b5; b6; b7] (key r)
  end.
Definition table : PositiveMap.t (ty * list ty) :=
  fold_left (fun t h => PositiveMap.add (key (declared_name h)) (snd (fst (fst h)), snd (fst h)) t) header (PositiveMap.empty _).
Definition agrees (h : string * ty * list ty * Z) : bool :=
  match PositiveMap.find (key (declared_name h)) table with
  | Some (r, ps) => ty_eqb (snd (fst (fst h))) r && tys_eqb (snd (fst h)) ps
  | None => false
  end.
Lemma header_consistent_check : forallb agrees header = true.
Proof. vm_compute. reflexivity. Qed.
Lemma header_consistent n r ps l r' ps' l' : In (n, r, ps, l) header -> In (n, r', ps', l') header -> r = r' /\ ps = ps'.
Proof.
  intros H H'. pose proof (proj1 (forallb_forall _ _) header_consistent_check _ H) as K.
  pose proof (proj1 (forallb_forall _ _) header_consistent_check _ H') as K'.
  unfold agrees, declared_name in K, K'. cbn [fst snd] in K, K'. destruct (PositiveMap.find (key n) table) as [[r0 ps0]|]; [|discriminate].
  apply andb_prop in K, K'. rewrite ty_eqb_spec, tys_eqb_spec in K, K'. destruct K, K'. split; congruence.
Qed.

Lemma defined_check :
  forallb (fun h => negb (existsb (fun f => String.eqb (f_name f) (declared_name h)) library)
                    || existsb (String.eqb (declared_name h)) mismatched
                    || existsb (fun f => declares f h) library) header = true.
Proof. vm_compute. reflexivity. Qed.

Lemma defined_as_declared n r ps l : In (n, r, ps, l) header -> In n (map f_name library) -> ~ In n mismatched ->
  exists f, In f library /\ f_name f = n /\ f_ret f = r /\ map snd (f_params f) = ps.
Proof.
  intros H N M. pose proof (proj1 (forallb_forall _ _) defined_check _ H) as K. cbv beta in K.
  apply in_map_iff in N. destruct N as (g & En & Ig).
  rewrite !orb_true_iff in K. destruct K as [[K|K]|K].
  - exfalso. apply negb_true_iff in K.
    assert (X : existsb (fun f => String.eqb (f_name f) (declared_name (n, r, ps, l))) library = true); [|congruence].
    apply existsb_exists. exists g. split; [exact Ig|]. now apply String.eqb_eq.
  - exfalso. apply existsb_exists in K. destruct K as (x & Ix & E). apply String.eqb_eq in E. cbn in E. now subst.
  - apply existsb_exists in K. destruct K as (f & If & D). apply declares_spec in D. exists f. cbn in D. injection D; intros; subst. auto.
Qed.

Lemma undefined_count :
  List.length (filter (fun h => negb (existsb (String.eqb (declared_name h)) (map f_name library))) header) = 1465%nat.
Proof. vm_compute. reflexivity. Qed.
