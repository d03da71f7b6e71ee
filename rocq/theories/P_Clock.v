(** The clock of the test runner. *)
From Coq Require Import ZArith List Bool Lia.
From Verif Require Import Runner Clock ClockSpec.
Import ListNotations.
Open Scope Z_scope.

Lemma i64_some z : - 2 ^ 63 <= z < 2 ^ 63 -> i64 z = Some z.
Proof. intros H. unfold i64. replace (- 2 ^ 63 <=? z) with true by (symmetry; apply Z.leb_le; lia). now replace (z <? 2 ^ 63) with true by (symmetry; apply Z.ltb_lt; lia). Qed.
Lemma i64_none z : 2 ^ 63 <= z -> i64 z = None.
Proof. intros H. unfold i64. replace (z <? 2 ^ 63) with false by (symmetry; apply Z.ltb_ge; lia). now rewrite andb_false_r. Qed.

Lemma ns_defined r : sane r -> is_mach r = false -> num 1 r < 2 ^ 63 -> utest_ns r = Some (num 1 r / den 1 r) /\ 0 <= num 1 r / den 1 r < 2 ^ 63.
Proof.
  assert (D : forall c f, 1 <= f -> 0 <= c -> c * 10 ^ 9 < 2 ^ 63 -> bind (i64 (c * 1000000000)) (fun x => if f =? 0 then None else i64 (Z.quot x f)) = Some (c * 10 ^ 9 / f) /\ 0 <= c * 10 ^ 9 / f < 2 ^ 63).
  { intros c f Hf Hc L. change (10 ^ 9) with 1000000000 in *. rewrite i64_some by lia. cbn [bind]. replace (f =? 0) with false by (symmetry; apply Z.eqb_neq; lia).
    rewrite Z.quot_div_nonneg by lia.
    assert (B : 0 <= c * 1000000000 / f < 2 ^ 63). { split; [apply Z.div_pos; lia|]. apply Z.le_lt_trans with (c * 1000000000); [|exact L]. apply Z.div_le_upper_bound; nia. }
    split; [apply i64_some; lia|exact B]. }
  intros S0 M L. destruct r as [f c|f c|s n|c]; cbn [sane num den utest_ns is_mach] in *; [apply D; tauto|apply D; tauto| |discriminate M].
  change (10 ^ 9) with 1000000000 in *. rewrite Z.div_1_r. rewrite i64_some by lia. cbn [bind]. rewrite i64_some by lia. cbn [bind]. rewrite i64_some by lia. cbn [bind].
  replace (s * 1000 * 1000 * 1000 + n) with (s * 1000000000 + n) by lia. rewrite i64_some by lia. split; [reflexivity|lia].
Qed.

Lemma ns_undefined r : sane r -> is_mach r = false -> 2 ^ 63 <= num 1 r -> utest_ns r = None.
Proof.
  intros S0 M L. destruct r as [f c|f c|s n|c]; cbn [sane num utest_ns is_mach] in *; [| | |discriminate M].
  1,2: change (10 ^ 9) with 1000000000 in L; rewrite i64_none by lia; reflexivity.
  change (10 ^ 9) with 1000000000 in *. unfold i64. repeat match goal with |- context [?a && ?b] => destruct (a && b) eqn:?; cbn [bind]; [|reflexivity] end.
  exfalso. apply andb_true_iff in Heqb2. destruct Heqb2 as [_ H]. apply Z.ltb_lt in H. lia.
Qed.

Lemma num_nonneg r : sane r -> is_mach r = false -> 0 <= num 1 r /\ 1 <= den 1 r.
Proof. destruct r; cbn; intros S0 M; try discriminate M; change (10 ^ 9) with 1000000000 in *; lia. Qed.

Lemma duration_good a b : sane a -> sane b -> same_clock a b -> is_mach a = false -> num 1 a < 2 ^ 63 -> num 1 b < 2 ^ 63 ->
  exists e, duration_ns a b = Some e /\ measures 1 1 a b e /\ (num 1 a <= num 1 b -> 0 <= e).
Proof.
  intros Sa Sb Sc M La Lb. assert (Mb : is_mach b = false) by (destruct a, b; cbn in *; try contradiction; congruence).
  assert (Ed : den 1 b = den 1 a) by (destruct a, b; cbn in *; try contradiction; congruence).
  destruct (ns_defined a Sa M La) as [Ea Ba]. destruct (ns_defined b Sb Mb Lb) as [Eb Bb]. destruct (num_nonneg a Sa M) as [Na Da].
  unfold duration_ns. rewrite Ea. cbn [bind]. rewrite Eb. cbn [bind]. rewrite i64_some by lia. eexists. split; [reflexivity|]. rewrite Ed in *. unfold measures.
  set (d := den 1 a) in *. set (x := num 1 a) in *. set (y := num 1 b) in *. clearbody d x y. split.
  - pose proof (Z.div_mod x d ltac:(lia)) as Hx. pose proof (Z.mod_pos_bound x d ltac:(lia)) as Mx. pose proof (Z.div_mod y d ltac:(lia)) as Hy. pose proof (Z.mod_pos_bound y d ltac:(lia)) as My.
    replace ((y / d - x / d) * d - (y - x)) with (x mod d - y mod d) by lia. lia.
  - intros L. pose proof (Z.div_le_mono x y d ltac:(lia) L). lia.
Qed.

Lemma duration_undefined a b : sane a -> sane b -> is_mach a = false -> is_mach b = false -> 2 ^ 63 <= num 1 a \/ 2 ^ 63 <= num 1 b -> duration_ns a b = None.
Proof.
  intros Sa Sb Ma Mb [H|H]; unfold duration_ns; [now rewrite (ns_undefined a Sa Ma H)|]. rewrite (ns_undefined b Sb Mb H). now destruct (utest_ns a).
Qed.

Lemma duration_mach a b : 0 <= a < 2 ^ 63 -> 0 <= b < 2 ^ 63 -> duration_ns (Mach a) (Mach b) = Some (b - a).
Proof.
  intros Ha Hb. unfold duration_ns, utest_ns. rewrite !Z.mod_small by lia. cbv zeta. replace (a <? 2 ^ 63) with true by (symmetry; apply Z.ltb_lt; lia).
  replace (b <? 2 ^ 63) with true by (symmetry; apply Z.ltb_lt; lia). cbn [bind]. apply i64_some. lia.
Qed.

Lemma mach_wrong numer denom a b : 0 < denom -> 0 <= a < 2 ^ 63 -> 0 <= b < 2 ^ 63 -> denom <= Z.abs ((b - a) * (denom - numer)) ->
  exists e, duration_ns (Mach a) (Mach b) = Some e /\ ~ measures numer denom (Mach a) (Mach b) e.
Proof. intros D Ha Hb H. exists (b - a). split; [now apply duration_mach|]. unfold measures. cbn [num den]. replace ((b - a) * denom - (b * numer - a * numer)) with ((b - a) * (denom - numer)) by ring. lia. Qed.

Lemma shown_time e : 0 <= e < 10 ^ 13 -> let (u, t) := shown true e in
  (u < 4)%nat /\ t * 1000 ^ Z.of_nat u <= e < (t + 1) * 1000 ^ Z.of_nat u /\ t < 10000 /\ (u = 0%nat \/ 10 <= t).
Proof.
  intros H. change (10 ^ 13) with 10000000000000 in H. unfold shown. cbn [units List.length scale].
  assert (Q : forall x, 0 <= x -> Z.quot x 1000 = x / 1000) by (intros; apply Z.quot_div_nonneg; lia).
  assert (Mo : forall x, 1000 * (x / 1000) <= x < 1000 * (x / 1000) + 1000).
  { intros x. pose proof (Z.div_mod x 1000 ltac:(lia)). pose proof (Z.mod_pos_bound x 1000 ltac:(lia)). lia. }
  assert (P : forall x, 0 <= x -> 0 <= x / 1000) by (intros; apply Z.div_pos; lia).
  rewrite (Q e) by lia. rewrite (Q (e / 1000)) by (apply P; lia). rewrite (Q (e / 1000 / 1000)) by (apply P, P; lia). rewrite (Q (e / 1000 / 1000 / 1000)) by (apply P, P, P; lia).
  pose proof (Mo e) as M1. pose proof (Mo (e / 1000)) as M2. pose proof (Mo (e / 1000 / 1000)) as M3.
  set (e1 := e / 1000) in *. set (e2 := e1 / 1000) in *. set (e3 := e2 / 1000) in *. clearbody e1 e2 e3.
  assert (G : forall x, (10000 >? x) = (x <? 10000)) by (intros; apply Z.gtb_ltb). rewrite !G.
  destruct (Z.ltb_spec e 10000); [change (1000 ^ Z.of_nat 0) with 1; repeat split; lia|].
  destruct (Z.ltb_spec e1 10000); [change (1000 ^ Z.of_nat 1) with 1000; repeat split; lia|].
  destruct (Z.ltb_spec e2 10000); [change (1000 ^ Z.of_nat 2) with 1000000; repeat split; lia|].
  destruct (Z.ltb_spec e3 10000); [change (1000 ^ Z.of_nat 3) with 1000000000; repeat split; lia|]. exfalso. lia.
Qed.

Lemma seed_range ns : 0 <= seed_of ns < 2 ^ 32.
Proof. apply Z.mod_pos_bound. lia. Qed.

Lemma seed_distinct a b : a / 2 ^ 32 = b / 2 ^ 32 -> seed_of a = seed_of b -> a = b.
Proof.
  intros H E. unfold seed_of in E. rewrite !Z.shiftr_div_pow2, !Z.land_ones in E by lia. rewrite H in E. rewrite !Z.mod_mod in E by lia.
  set (k := (b / 2 ^ 32) mod 2 ^ 32 * 31) in *. pose proof (Z.mod_pos_bound a (2 ^ 32) ltac:(lia)) as Ma. pose proof (Z.mod_pos_bound b (2 ^ 32) ltac:(lia)) as Mb.
  pose proof (Z.div_mod a (2 ^ 32) ltac:(lia)) as Da. pose proof (Z.div_mod b (2 ^ 32) ltac:(lia)) as Db.
  pose proof (Z.div_mod (k + a mod 2 ^ 32) (2 ^ 32) ltac:(lia)) as Ka. pose proof (Z.div_mod (k + b mod 2 ^ 32) (2 ^ 32) ltac:(lia)) as Kb.
  set (x := a mod 2 ^ 32) in *. set (y := b mod 2 ^ 32) in *. set (p := (k + x) / 2 ^ 32) in *. set (q := (k + y) / 2 ^ 32) in *.
  rewrite E in Ka. clearbody k x y p q. assert (x = y) by lia. lia.
Qed.

Lemma ns_iff r : sane r -> is_mach r = false -> (utest_ns r = None <-> 2 ^ 63 <= num 1 r).
Proof.
  intros S0 M. split; [|exact (ns_undefined r S0 M)]. intros H. destruct (Z_lt_le_dec (num 1 r) (2 ^ 63)) as [L|L]; [|exact L].
  destruct (ns_defined r S0 M L) as [E _]. rewrite H in E. discriminate E.
Qed.

Lemma windows_uptime f c : 1 <= f -> 0 <= c -> (utest_ns (Counter f c) = None <-> 9223372037 <= c).
Proof. intros F C. rewrite (ns_iff (Counter f c)) by (cbn; auto). cbn [num]. change (10 ^ 9) with 1000000000. lia. Qed.

Lemma mach_ticks a b : 0 <= a < 2 ^ 64 -> 0 <= b < 2 ^ 64 -> (a < 2 ^ 63 <-> b < 2 ^ 63) -> duration_ns (Mach a) (Mach b) = Some (b - a).
Proof.
  intros Ha Hb H. unfold duration_ns, utest_ns. rewrite !Z.mod_small by lia. cbv zeta. cbn [bind].
  destruct (Z.ltb_spec a (2 ^ 63)) as [La|La], (Z.ltb_spec b (2 ^ 63)) as [Lb|Lb]; try lia.
  - apply i64_some. lia.
  - replace (b - 2 ^ 64 - (a - 2 ^ 64)) with (b - a) by ring. apply i64_some. lia.
Qed.
