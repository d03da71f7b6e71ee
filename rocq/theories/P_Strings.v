(** The checks of strings. *)
From Coq Require Import ZArith Arith Ascii List Bool Lia.
From Verif Require Import Strings StringsSpec.
Import ListNotations.
Open Scope nat_scope.

Lemma code_inj a b : code a = code b -> a = b.
Proof. unfold code. intros H. apply Nat2Z.inj in H. rewrite <- (ascii_nat_embedding a), <- (ascii_nat_embedding b). now rewrite H. Qed.
Lemma code_nul a : code a = 0%Z -> a = NUL.
Proof. intros H. apply code_inj. rewrite H. reflexivity. Qed.

(** The end of a string within the limit, or the limit. *)
Definition upto (limit : option nat) (l s : list ascii) : Prop :=
  match limit with None => holds l s | Some n => holds_upto n l s end.

Lemma upto_step limit p l s : upto limit (p ++ l) (p ++ s) -> ~ In NUL s /\ match limit with
  | None => exists rest, l = s ++ NUL :: rest
  | Some n => (exists rest, l = s ++ NUL :: rest /\ List.length p + List.length s < n) \/ (exists rest, l = s ++ rest /\ List.length p + List.length s = n) end.
Proof.
  destruct limit as [n|]; cbn; intros [N H]; (split; [intros Q; apply N; apply in_or_app; now right|]).
  - destruct H as [(r & E & L)|(r & E & L)]; [left|right]; exists r; rewrite <- app_assoc in E; apply app_inv_head in E; rewrite app_length in L; auto.
  - destruct H as (r & E). exists r. rewrite <- app_assoc in E. now apply app_inv_head in E.
Qed.

Lemma compare_spec limit : forall fuel p x y s t, upto limit (p ++ x) (p ++ s) -> upto limit (p ++ y) (p ++ t) -> List.length s < fuel ->
  exists z, compare_from fuel limit (p ++ x) (p ++ y) (List.length p) = Some z /\ (z = 0%Z <-> s = t).
Proof.
  induction fuel as [|fuel IH]; intros p x y s t Hx Hy L; [lia|]. cbn [compare_from].
  pose proof (upto_step _ _ _ _ Hx) as [Nx Ex]. pose proof (upto_step _ _ _ _ Hy) as [Ny Ey].
  destruct (match limit with Some n => _ | None => false end) eqn:Li.
  - exists 0%Z. split; [reflexivity|]. destruct limit as [n|]; [|discriminate Li]. apply Nat.leb_le in Li.
    assert (s = []) by (destruct s; [reflexivity|exfalso; destruct Ex as [(r & _ & Q)|(r & _ & Q)]; cbn in Q; lia]).
    assert (t = []) by (destruct t; [reflexivity|exfalso; destruct Ey as [(r & _ & Q)|(r & _ & Q)]; cbn in Q; lia]). subst. tauto.
  - assert (Cx : exists a x', x = a :: x' /\ match s with [] => a = NUL | c :: s' => a = c end).
    { destruct s as [|c s'].
      - destruct limit as [n|]; [apply Nat.leb_gt in Li; destruct Ex as [(r & -> & Q)|(r & -> & Q)]; [|cbn in Q; lia]|destruct Ex as (r & ->)]; exists NUL, r; now split.
      - destruct limit as [n|]; [destruct Ex as [(r & -> & Q)|(r & -> & Q)]|destruct Ex as (r & ->)]; eexists c, _; now split. }
    assert (Cy : exists b y', y = b :: y' /\ match t with [] => b = NUL | c :: t' => b = c end).
    { destruct t as [|c t'].
      - destruct limit as [n|]; [apply Nat.leb_gt in Li; destruct Ey as [(r & -> & Q)|(r & -> & Q)]; [|cbn in Q; lia]|destruct Ey as (r & ->)]; exists NUL, r; now split.
      - destruct limit as [n|]; [destruct Ey as [(r & -> & Q)|(r & -> & Q)]|destruct Ey as (r & ->)]; eexists c, _; now split. }
    destruct Cx as (a & x' & -> & Ca). destruct Cy as (b & y' & -> & Cb). unfold char_at.
    rewrite !nth_error_app2, Nat.sub_diag by lia. cbn [nth_error].
    destruct (Z.eqb_spec (code a) (code b)) as [E|E].
    + apply code_inj in E. subst b. destruct (Z.eqb_spec (code a) 0) as [Z0|Z0].
      * apply code_nul in Z0. exists 0%Z. split; [reflexivity|]. subst a.
        destruct s as [|c s]; [|exfalso; apply Nx; left; congruence]. destruct t as [|d t]; [tauto|exfalso; apply Ny; left; congruence].
      * destruct s as [|c s]; [exfalso; apply Z0; rewrite Ca; reflexivity|]. destruct t as [|d t]; [exfalso; apply Z0; rewrite Cb; reflexivity|]. rewrite <- Ca in *. rewrite <- Cb in *. clear Ca Cb c d.
        specialize (IH (p ++ [a]) x' y' s t). rewrite <- !app_assoc in IH. cbn [app] in IH. rewrite app_length in IH. cbn [List.length] in IH. rewrite Nat.add_1_r in IH.
        destruct (IH Hx Hy ltac:(cbn in L; lia)) as (z & Ez & Hz). exists z. split; [exact Ez|]. rewrite Hz. split; [now intros ->|congruence].
    + exists (code a - code b)%Z. split; [reflexivity|]. split; [lia|]. intros ->. exfalso. apply E. destruct t; congruence.
Qed.

Lemma upto_length limit l s : upto limit l s -> List.length s <= List.length l.
Proof.
  destruct limit as [n|]; cbn; intros [_ H].
  - destruct H as [(r & -> & _)|(r & -> & _)]; rewrite app_length; lia.
  - destruct H as (r & ->). rewrite app_length. lia.
Qed.

Lemma compare_whole limit x y s t : upto limit x s -> upto limit y t -> exists z, compare_from (fuel_for x y) limit x y 0 = Some z /\ (z = 0%Z <-> s = t).
Proof. intros Hx Hy. apply (compare_spec limit (fuel_for x y) [] x y s t Hx Hy). pose proof (upto_length _ _ _ Hx). unfold fuel_for. lia. Qed.

Lemma checked_spec same limit cmp x y s t : (forall a b, cmp a b = compare_from (fuel_for a b) limit a b 0) -> upto limit x s -> upto limit y t ->
  checked same cmp (Some x) (Some y) <> Undefined /\ (checked same cmp (Some x) (Some y) = Holds <-> (if same then s = t else s <> t)).
Proof.
  intros C Hx Hy. cbn [checked]. rewrite C. destruct (compare_whole limit x y s t Hx Hy) as (z & -> & Hz). destruct (Z.eqb_spec z 0) as [E|E], same; cbn [negb].
  all: split; [discriminate|]; split; intros H; try discriminate H; try reflexivity; try tauto.
Qed.

Lemma streq_spec x y s t : holds x s -> holds y t -> (streq (Some x) (Some y) = Holds <-> s = t) /\ (strne (Some x) (Some y) = Holds <-> s <> t) /\
  streq (Some x) (Some y) <> Undefined /\ strne (Some x) (Some y) <> Undefined.
Proof.
  intros Hx Hy. destruct (checked_spec true None strcmp x y s t (fun _ _ => eq_refl) Hx Hy) as [A1 A2]. destruct (checked_spec false None strcmp x y s t (fun _ _ => eq_refl) Hx Hy) as [B1 B2].
  unfold streq, strne. tauto.
Qed.

Lemma strneq_spec n x y s t : holds_upto n x s -> holds_upto n y t -> (strneq (Some x) (Some y) n = Holds <-> s = t) /\ (strnne (Some x) (Some y) n = Holds <-> s <> t) /\
  strneq (Some x) (Some y) n <> Undefined /\ strnne (Some x) (Some y) n <> Undefined.
Proof.
  intros Hx Hy. destruct (checked_spec true (Some n) (fun a b => strncmp a b n) x y s t (fun _ _ => eq_refl) Hx Hy) as [A1 A2].
  destruct (checked_spec false (Some n) (fun a b => strncmp a b n) x y s t (fun _ _ => eq_refl) Hx Hy) as [B1 B2]. unfold strneq, strnne. tauto.
Qed.

Lemma null_undefined same cmp x y : x = None \/ y = None -> checked same cmp x y = Undefined.
Proof. intros [-> | ->]; [reflexivity|]. now destruct x. Qed.
