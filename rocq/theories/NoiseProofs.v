(** The accesses of the noise function, in exact arithmetic. *)
From Coq Require Import Reals ZArith List Bool Lra Lia Psatz Permutation.
From Verif Require Import Outcome Base Flt FltR FltRFacts Num State ModelStep ModelTypes ModelNoise
  SpecGeo TypesProofs.
Import ListNotations.
Open Scope R_scope.

(** A table of 256 values between 0 and 255. *)
Definition table_ok (l : list Z) : Prop :=
  length l = 256%nat /\ forall v, In v l -> (0 <= v <= 255)%Z.
Lemma perm_table_ok : forall l, Permutation l (map Z.of_nat (seq 0 256)) -> table_ok l.
Proof.
  intros l P. split.
  - rewrite (Permutation_length P), map_length, seq_length. reflexivity.
  - intros v H. apply (Permutation_in _ P) in H. apply in_map_iff in H as (n & <- & H).
    apply in_seq in H. lia.
Qed.
Lemma vec_at_ok : forall X (d : X) l n, (0 <= n < Z.of_nat (length l))%Z ->
  exists v, vec_at d l n = Ok v /\ In v l /\ v = nth (Z.to_nat n) l d.
Proof.
  intros X d l n H. unfold vec_at, guard.
  replace (0 <=? n)%Z with true by (symmetry; apply Z.leb_le; lia).
  replace (n <? Z.of_nat (length l))%Z with true by (symmetry; apply Z.ltb_lt; lia).
  eexists; split; [reflexivity|]. split; [|reflexivity]. apply nth_In. lia.
Qed.
Lemma vec_at_bad : forall X (d : X) l n, (n < 0)%Z -> vec_at d l n = UB OutOfRange.
Proof.
  intros X d l n H. unfold vec_at, guard.
  replace (0 <=? n)%Z with false by (symmetry; apply Z.leb_gt; lia). reflexivity.
Qed.
Lemma land_mask : forall n k, (0 <= k)%Z -> (0 <= Z.land n (Z.ones k) < 2 ^ k)%Z.
Proof. intros n k H. rewrite Z.land_ones by auto. apply Z.mod_pos_bound. apply Z.pow_pos_nonneg; lia. Qed.

Lemma corner_noise_ok : forall table i j (x y : R), table_ok table ->
  (0 <= j <= 255)%Z -> (-2147483648 <= i <= 2147483392)%Z ->
  exists v, corner_noise (K := FltR) table i j x y = Ok v.
Proof.
  intros table i j x y [L V] J I. unfold corner_noise. destruct (dltb _ _); [eexists; reflexivity|].
  destruct (vec_at_ok _ 0%Z table j ltac:(lia)) as (p & -> & P & _). cbn [bind].
  specialize (V p P). unfold chk_int. rewrite int_ok_range by lia. cbn [bind].
  pose proof (land_mask (i + p) 8 ltac:(lia)) as M. change (Z.ones 8) with 255%Z in M.
  change (2 ^ 8)%Z with 256%Z in M.
  destruct (vec_at_ok _ 0%Z table (Z.land (i + p) 255) ltac:(lia)) as (q & -> & _ & _). cbn [bind].
  pose proof (land_mask q 3 ltac:(lia)) as Q. change (Z.ones 3) with 7%Z in Q.
  change (2 ^ 3)%Z with 8%Z in Q.
  destruct (vec_at_ok _ (0%Z, 0%Z) noise_directions (Z.land q 7)) as ([dx dy] & -> & _ & _).
  { unfold noise_directions; cbn [length]. lia. }
  eexists; reflexivity.
Qed.

Lemma sqrt3_bounds : 17 / 10 < sqrt 3 < 18 / 10.
Proof.
  split.
  - replace (17 / 10) with (sqrt ((17 / 10) * (17 / 10))) by (apply sqrt_square; lra).
    apply sqrt_lt_1; lra.
  - replace (18 / 10) with (sqrt ((18 / 10) * (18 / 10))) at 1 by (apply sqrt_square; lra).
    apply sqrt_lt_1; lra.
Qed.

Lemma s_floor_eq : forall x, s_int (K := FltR) (sfloor (f := FltR) x) =
  if int_ok (zfloor x) then Ok (zfloor x) else UB BadCast.
Proof. intros. exact (s_int_IZR (zfloor x)). Qed.

Lemma noise_ok : forall (x y : R) table, table_ok table -> 0 <= x <= 100 -> 0 <= y <= 100 ->
  exists v, simplex_noise (K := FltR) x y table = Ok v.
Proof.
  intros x y table T X Y. unfold simplex_noise.
  set (s := nar _). assert (S : s = (x + y) * (sqrt 3 - 1) / 2) by reflexivity. clearbody s.
  pose proof sqrt3_bounds as B.
  assert (S' : 0 <= s <= 80) by (rewrite S; split; nra).
  rewrite !s_floor_eq.
  assert (F : forall z, 0 <= z <= 100 -> (0 <= zfloor (z + s) <= 180)%Z).
  { intros z Z. pose proof (zfloor_spec (z + s)) as Q. split.
    - assert (-1 < zfloor (z + s))%Z by (apply lt_IZR; lra). lia.
    - apply le_IZR. lra. }
  pose proof (F x X) as FX. pose proof (F y Y) as FY.
  change (sadd (f := FltR) x s) with (x + s). change (sadd (f := FltR) y s) with (y + s).
  set (xi := zfloor (x + s)) in *. set (yi := zfloor (y + s)) in *.
  rewrite (int_ok_range xi) by lia. cbn [bind]. rewrite (int_ok_range yi) by lia. cbn [bind].
  unfold chk_int at 1. rewrite (int_ok_range (xi + yi)) by lia. cbn [bind].
  match goal with |- context [if ?c then (1, 0)%Z else (0, 1)%Z] => destruct c end; cbv iota beta;
    unfold chk_int; rewrite !int_ok_range by lia; cbn [bind].
    match goal with |- context [bind (corner_noise table xi yi ?a ?b) _] =>
      destruct (corner_noise_ok table xi yi a b T ltac:(lia) ltac:(lia)) as (h0 & H0) end.
    rewrite H0. cbn [bind].
    match goal with |- context [bind (corner_noise table ?i ?j ?a ?b) _] =>
      destruct (corner_noise_ok table i j a b T ltac:(lia) ltac:(lia)) as (h1 & H1) end.
    rewrite H1. cbn [bind].
    match goal with |- context [bind (corner_noise table ?i ?j ?a ?b) _] =>
      destruct (corner_noise_ok table i j a b T ltac:(lia) ltac:(lia)) as (h2 & H2) end.
    rewrite H2. eexists; reflexivity.
  - match goal with |- context [bind (corner_noise table xi yi ?a ?b) _] =>
      destruct (corner_noise_ok table xi yi a b T ltac:(lia) ltac:(lia)) as (h0 & H0) end.
    rewrite H0. cbn [bind].
    match goal with |- context [bind (corner_noise table ?i ?j ?a ?b) _] =>
      destruct (corner_noise_ok table i j a b T ltac:(lia) ltac:(lia)) as (h1 & H1) end.
    rewrite H1. cbn [bind].
    match goal with |- context [bind (corner_noise table ?i ?j ?a ?b) _] =>
      destruct (corner_noise_ok table i j a b T ltac:(lia) ltac:(lia)) as (h2 & H2) end.
    rewrite H2. eexists; reflexivity.
Qed.

(** A negative coordinate. *)
Lemma noise_negative : forall table, simplex_noise (K := FltR) 0 (-1) table = UB OutOfRange.
Proof.
  intros table. unfold simplex_noise. pose proof sqrt3_bounds as B.
  set (s := nar _). assert (S : s = (0 + -1) * (sqrt 3 - 1) / 2) by reflexivity. clearbody s.
  assert (S' : - (4 / 10) <= s <= - (35 / 100)) by (rewrite S; split; lra).
  rewrite !s_floor_eq.
  change (sadd (f := FltR) 0 s) with (0 + s). change (sadd (f := FltR) (-1) s) with (-1 + s).
  rewrite (zfloor_unique (0 + s) (-1)) by lra. rewrite (zfloor_unique (-1 + s) (-2)) by lra.
  rewrite !int_ok_range by lia. cbn [bind].
  unfold chk_int at 1. rewrite int_ok_range by lia. cbn [bind].
  set (s' := nar _). assert (E : s' = -3 * (3 - sqrt 3) / 6) by reflexivity. clearbody s'.
  assert (E' : - (65 / 100) <= s' <= - (6 / 10)) by (rewrite E; split; lra).
  match goal with |- context [if ?c then (1, 0)%Z else (0, 1)%Z] => destruct c end; cbv iota beta;
    unfold chk_int; rewrite !int_ok_range by lia; cbn [bind]; unfold corner_noise at 1.
  - replace (dltb _ _) with false.
    + rewrite vec_at_bad by lia. reflexivity.
    + symmetry. apply Rltb_ge. cbn. nra.
  - replace (dltb _ _) with false.
    + rewrite vec_at_bad by lia. reflexivity.
    + symmetry. apply Rltb_ge. cbn. nra.
Qed.

(** ** Init *)
Lemma rescaled_eq : forall s c i, 0 < c -> c <= s -> (0 <= i <= 2 * zround (s / c))%Z ->
  exists x, rescaled (K := FltR)
    (levels (fun v => v + c) (- s) (Z.to_nat (2 * zround (s / c) + 1))) i = Ok x /\ 0 <= x <= 3 / 2.
Proof.
  intros s c i C S I. unfold rescaled.
  pose proof (ratio_ge_1 s c C S) as R1.
  assert (L : Z.of_nat (length (levels (fun v => v + c) (- s) (Z.to_nat (2 * zround (s / c) + 1)))) =
    (2 * zround (s / c) + 1)%Z) by (rewrite levels_length; lia).
  destruct (vec_at_ok _ (s0 (K := FltR)) (levels (fun v => v + c) (- s) (Z.to_nat (2 * zround (s / c) + 1))) 0)
    as (a & -> & _ & Ea).
  { split; [lia|]. eapply Z.lt_le_trans; [|apply Z.eq_le_incl; symmetry; exact L]. lia. }
  destruct (vec_at_ok _ (s0 (K := FltR)) (levels (fun v => v + c) (- s) (Z.to_nat (2 * zround (s / c) + 1))) i)
    as (b & -> & _ & Eb).
  { split; [lia|]. eapply Z.lt_le_trans; [|apply Z.eq_le_incl; symmetry; exact L]. lia. }
  cbn [bind]. rewrite levels_nth in Ea, Eb by lia.
  eexists; split; [reflexivity|].
  change (ssub (f := FltR)) with Rminus. change (sdiv (f := FltR)) with Rdiv.
  change (smul (f := FltR)) with Rmult. change (s_of_Z (f := FltR) 2) with 2.
  rewrite Ea, Eb. change (INR (Z.to_nat 0)) with 0. rewrite INR_IZR_INZ, Z2Nat.id by lia.
  pose proof (zround_spec (s / c)) as Z.
  assert (P : 0 < s / c) by (apply Rdiv_lt_0_compat; lra).
  replace ((- s + 0 * c - (- s + IZR i * c)) / (2 * (- s + 0 * c))) with (IZR i / (2 * (s / c)))
    by (field; lra).
  destruct I as [I1 I2]. apply IZR_le in I1. apply IZR_le in I2. rewrite mult_IZR in I2.
  assert (Q : 1 <= s / c).
  { apply Rmult_le_reg_r with c; [lra|]. unfold Rdiv. rewrite Rmult_assoc, Rinv_l by lra. lra. }
  split.
  - apply Rmult_le_pos; [lra|]. left. apply Rinv_0_lt_compat. lra.
  - apply Rmult_le_reg_r with (2 * (s / c)); [lra|]. unfold Rdiv at 1. rewrite Rmult_assoc, Rinv_l by lra.
    lra.
Qed.

Lemma cell_noise_ok : forall sx sy sz cxy cz amp table i j, sizes_ok sx sy sz cxy cz ->
  table_ok table ->
  let g := grid_of sx sy sz cxy cz in
  (0 <= i <= 2 * g_half_x g)%Z -> (0 <= j <= 2 * g_half_y g)%Z ->
  exists n, cell_noise (K := FltR) g amp table i j = Ok (cz * IZR n).
Proof.
  intros sx sy sz cxy cz amp table i j H T g I J. unfold cell_noise.
  assert (C : 0 < cxy /\ cxy <= sx /\ cxy <= sy) by (destruct H as (A & B & D & E & _); lra).
  destruct (rescaled_eq sx cxy i (proj1 C) (proj1 (proj2 C)) I) as (x & EX & BX).
  destruct (rescaled_eq sy cxy j (proj1 C) (proj2 (proj2 C)) J) as (y & EY & BY).
  replace (rescaled (g_vect_x g) i) with (Ok x) by (symmetry; exact EX). cbn [bind].
  replace (rescaled (g_vect_y g) j) with (Ok y) by (symmetry; exact EY). cbn [bind].
  assert (N : forall k, (1 <= k <= 8)%Z -> exists v,
    simplex_noise (K := FltR) (smul (s_of_Z k) x) (smul (s_of_Z k) y) table = Ok v).
  { intros k [K1 K2]. apply IZR_le in K1. apply IZR_le in K2. apply noise_ok; auto.
    - change (0 <= IZR k * x <= 100). nra.
    - change (0 <= IZR k * y <= 100). nra. }
  destruct (N 1%Z ltac:(lia)) as (v1 & ->). destruct (N 2%Z ltac:(lia)) as (v2 & ->).
  destruct (N 4%Z ltac:(lia)) as (v4 & ->). destruct (N 8%Z ltac:(lia)) as (v8 & ->). cbn [bind].
  eexists. reflexivity.
Qed.

(** In a grid accepted by the constructor, with the table made by Init. *)
Lemma built_grid : forall sx sy sz cxy cz g, rnew_grid sx sy sz cxy cz = Built g ->
  sizes_ok sx sy sz cxy cz /\ (fits sx cxy /\ fits sy cxy /\ fits sz cz) /\
  g = grid_of sx sy sz cxy cz.
Proof.
  intros sx sy sz cxy cz g E.
  assert (D : sizes_ok sx sy sz cxy cz \/ ~ sizes_ok sx sy sz cxy cz).
  { unfold sizes_ok. destruct (Rlt_dec 0 cz), (Rle_dec cz cxy), (Rle_dec cxy sx), (Rle_dec cxy sy),
      (Rle_dec cz sz); tauto. }
  destruct D as [H|H].
  - assert (D : forall s c, fits s c \/ ~ fits s c) by (intros; unfold fits; lia).
    split; auto. destruct (D sx cxy) as [Fx|Fx], (D sy cxy) as [Fy|Fy], (D sz cz) as [Fz|Fz];
      try (destruct (new_grid_ub sx sy sz cxy cz H) as (r & Q); [tauto|congruence]).
    split; auto. rewrite new_grid_ok in E by auto. injection E; auto.
  - destruct (new_grid_throws _ _ _ _ _ H) as (n & Q). congruence.
Qed.
Lemma init_noise_ok : forall sx sy sz cxy cz g amp r i j, rnew_grid sx sy sz cxy cz = Built g ->
  (0 <= i <= 2 * g_half_x g)%Z -> (0 <= j <= 2 * g_half_y g)%Z ->
  exists n, cell_noise (K := FltR) g amp (map Z.of_nat (fst (perm_table r))) i j =
    Ok (g_cell_z g * IZR n).
Proof.
  intros sx sy sz cxy cz g amp r i j E I J. destruct (built_grid _ _ _ _ _ _ E) as (H & _ & ->).
  apply cell_noise_ok; auto. apply perm_table_ok. apply Permutation_map.
  unfold perm_table. destruct (shuffle (seq 0 256) r) as [l r'] eqn:Q. eapply shuffle_eq; eauto.
Qed.

From Verif Require Import GeoClaims Demo.
Lemma noise_example :
  rnew_grid 4%R 4%R 4%R (/ 10)%R (/ 10)%R = Built demo_g /\ (0 <= 80 <= 2 * g_half_x demo_g)%Z /\
  table_ok (map Z.of_nat (fst (perm_table demo_rng))) /\
  hd 0%nat (fst (perm_table demo_rng)) <> 0%nat.
Proof.
  split; [|split; [|split]].
  - destruct demo_half as (X & Y & Z). cbn in X, Y, Z. apply new_grid_ok.
    + unfold sizes_ok. lra.
    + unfold fits. rewrite X. lia.
    + unfold fits. rewrite X. lia.
    + unfold fits. rewrite X. lia.
  - destruct demo_half as (-> & _ & _). lia.
  - apply perm_table_ok. apply Permutation_map.
    unfold perm_table. destruct (shuffle (seq 0 256) demo_rng) as [l r'] eqn:Q. eapply shuffle_eq; eauto.
  - apply Nat.eqb_neq. vm_cast_no_check (@eq_refl bool false).
Qed.
