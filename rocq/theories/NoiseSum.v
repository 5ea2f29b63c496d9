(** The noise of Init is the sum of the bumps of the lattice, in exact arithmetic. *)
From Coq Require Import Reals ZArith List Bool Lra Lia Psatz Permutation.
From Verif Require Import Outcome Base Flt FltR FltRFacts Num State ModelStep ModelTypes ModelNoise
  ModelGeometry SpecGeo SpecNoise TypesProofs GeoClaims Demo NoiseProofs.
Import ListNotations.
Open Scope R_scope.

(** ** Sums *)
Lemma sum_perm : forall X (f : X -> R) l l', Permutation l l' -> sum f l = sum f l'.
Proof. intros X f l l' P. unfold sum. induction P; cbn in *; lra. Qed.
Definition pair_eqb (a b : Z * Z) : bool := ((fst a =? fst b) && (snd a =? snd b))%Z.
Lemma pair_eqb_eq : forall a b, pair_eqb a b = true <-> a = b.
Proof.
  intros [a1 a2] [b1 b2]. unfold pair_eqb. cbn [fst snd]. rewrite andb_true_iff, !Z.eqb_eq.
  split; [intros [-> ->]; auto|intros [= -> ->]; auto].
Qed.
Definition mem (l : list (Z * Z)) (a : Z * Z) : bool := existsb (pair_eqb a) l.
Lemma mem_in : forall l a, mem l a = true <-> In a l.
Proof.
  intros l a. unfold mem. rewrite existsb_exists. split.
  - intros (b & H & E). apply pair_eqb_eq in E. subst; auto.
  - intros H. exists a. split; auto. apply pair_eqb_eq; auto.
Qed.
Lemma sum_filter : forall f (l : list (Z * Z)) (P : Z * Z -> bool),
  (forall a, In a l -> P a = false -> f a = 0) -> sum f l = sum f (filter P l).
Proof.
  intros f l P. unfold sum. induction l as [|a l IH]; intros H; cbn; auto.
  destruct (P a) eqn:E; cbn.
  - rewrite IH; auto. intros b B. apply H. right; auto.
  - rewrite (H a), IH; auto; [lra| |left; auto]. intros b B. apply H. right; auto.
Qed.
Lemma sum_cover : forall f (l l' : list (Z * Z)), NoDup l -> NoDup l' ->
  (forall a, ~ In a l -> f a = 0) -> (forall a, ~ In a l' -> f a = 0) -> sum f l = sum f l'.
Proof.
  intros f l l' N N' H H'.
  rewrite (sum_filter f l (mem l')), (sum_filter f l' (mem l)).
  - apply sum_perm. apply NoDup_Permutation; try apply NoDup_filter; auto.
    intros a. rewrite !filter_In, !mem_in. tauto.
  - intros a _ E. apply H. rewrite <- mem_in. congruence.
  - intros a _ E. apply H'. rewrite <- mem_in. congruence.
Qed.

(** ** The lattice *)
Lemma sqrt3_sq : sqrt 3 * sqrt 3 = 3.
Proof. apply sqrt_sqrt; lra. Qed.

(** The squared distance in the coordinates of the lattice. *)
Lemma dist2_skewed : forall x y i j,
  let s := (x + y) * (sqrt 3 - 1) / 2 in
  let a := x + s - IZR i in let b := y + s - IZR j in
  dist2 x y i j = 2 / 3 * (a * a - a * b + b * b).
Proof.
  intros x y i j s a b. subst a b s. unfold dist2, from_x, from_y, squeeze.
  pose proof sqrt3_sq as Q. set (r := sqrt 3) in *. clearbody r.
  set (u := IZR i). set (v := IZR j). clearbody u v.
  assert (E : r ^ 2 = 3) by (cbn; lra).
  match goal with |- ?l = ?m => enough (D : l - m = 0) by lra end.
  match goal with |- ?e = 0 => replace e with
    ((r ^ 2 - 3) * ((u + v) ^ 2 / 18 - (x + y) ^ 2 / 6 )) by field end.
  rewrite E. ring.
Qed.

Lemma far_1 : forall a b : R, 1 <= Rabs a \/ 1 <= Rabs b \/ 1 <= Rabs (a - b) ->
  / 2 <= 2 / 3 * (a * a - a * b + b * b).
Proof.
  assert (S : forall z : R, 1 <= Rabs z -> 1 <= z * z).
  { intros z H. unfold Rabs in H. destruct (Rcase_abs z); nra. }
  intros a b [H|[H|H]]; apply S in H.
  - pose proof (Rle_0_sqr (b - a / 2)) as Q. unfold Rsqr in Q. nra.
  - pose proof (Rle_0_sqr (a - b / 2)) as Q. unfold Rsqr in Q. nra.
  - pose proof (Rle_0_sqr (a + b)) as Q. unfold Rsqr in Q. nra.
Qed.

Lemma bump_far : forall table x y i j, / 2 <= dist2 x y i j -> bump table x y (i, j) = 0.
Proof.
  intros table x y i j H. unfold bump. destruct (Rlt_dec _ _) as [L|L]; auto.
  replace (/ 2 - dist2 x y i j) with 0 by lra. cbn. ring.
Qed.

(** The three corners of the triangle that holds the point. *)
Definition corners3 (xi yi : Z) (below : bool) : list (Z * Z) :=
  [(xi, yi); if below then (xi + 1, yi)%Z else (xi, yi + 1)%Z; (xi + 1, yi + 1)%Z].
Lemma corners3_nodup : forall xi yi b, NoDup (corners3 xi yi b).
Proof.
  intros xi yi b. unfold corners3.
  repeat constructor; cbn; destruct b; intros H;
    repeat match goal with
    | H : _ \/ _ |- _ => destruct H
    | H : _ = _ |- _ => injection H; clear H; intros
    | H : False |- _ => destruct H
    end; lia.
Qed.

Lemma others_far : forall x y xi yi (below : bool) i j,
  let s := (x + y) * (sqrt 3 - 1) / 2 in
  IZR xi <= x + s < IZR xi + 1 -> IZR yi <= y + s < IZR yi + 1 ->
  (if below then y + s - IZR yi <= x + s - IZR xi else x + s - IZR xi <= y + s - IZR yi) ->
  ~ In (i, j) (corners3 xi yi below) -> / 2 <= dist2 x y i j.
Proof.
  intros x y xi yi below i j s X Y B N. rewrite dist2_skewed. apply far_1.
  fold s. set (u := x + s) in *. set (v := y + s) in *. clearbody u v.
  assert (LE : forall (n m : Z) z, IZR n <= z < IZR n + 1 -> (m < n \/ n + 1 < m)%Z -> 1 <= Rabs (z - IZR m)).
  { intros n m z H [L|L].
    - assert (m + 1 <= n)%Z as Q by lia. apply IZR_le in Q. rewrite plus_IZR in Q.
      rewrite Rabs_right; lra.
    - assert (n + 2 <= m)%Z as Q by lia. apply IZR_le in Q. rewrite plus_IZR in Q.
      rewrite Rabs_left; lra. }
  destruct (Z.lt_ge_cases i xi) as [I|I]; [left; apply (LE xi); auto|].
  destruct (Z.lt_ge_cases (xi + 1) i) as [I'|I']; [left; apply (LE xi); auto|].
  destruct (Z.lt_ge_cases j yi) as [J|J]; [right; left; apply (LE yi); auto|].
  destruct (Z.lt_ge_cases (yi + 1) j) as [J'|J']; [right; left; apply (LE yi); auto|].
  right; right. unfold corners3 in N. cbn [In] in N.
  assert (Ei : i = xi \/ i = (xi + 1)%Z) by lia. assert (Ej : j = yi \/ j = (yi + 1)%Z) by lia.
  destruct below, Ei as [-> | ->], Ej as [-> | ->]; try (exfalso; tauto); rewrite plus_IZR.
  - rewrite Rabs_right; lra.
  - rewrite Rabs_left1; lra.
Qed.

(** ** The code *)
Lemma vec_at_inv : forall X (d : X) l n v, vec_at d l n = Ok v ->
  v = nth (Z.to_nat n) l d.
Proof.
  intros X d l n v. unfold vec_at, guard. destruct (_ && _)%bool; [|discriminate].
  intros [= <-]. reflexivity.
Qed.

Lemma corner_bump : forall table i j x y v,
  corner_noise (K := FltR) table i j (from_x x i j) (from_y y i j) = Ok v ->
  v = bump table x y (i, j).
Proof.
  intros table i j x y v H. unfold corner_noise in H. unfold bump, dist2.
  set (a := from_x x i j) in *. set (b := from_y y i j) in *. clearbody a b.
  cbv zeta in H.
  match type of H with context [dltb (wid ?e) _] => set (t := e) in H end.
  assert (Et : t = / 2 - (a * a + b * b)) by (unfold t; cbn; lra).
  clearbody t. rewrite <- Et. change (wid t) with t in H.
  change (dltb (f := FltR) t d0) with (Rltb t 0) in H.
  destruct (Rltb t 0) eqn:L.
  - apply Rltb_lt in L. destruct (Rlt_dec t 0); [|lra]. injection H; auto.
  - apply Rltb_ge in L. destruct (Rlt_dec t 0); [lra|].
    destruct (vec_at 0%Z table j) as [p| |] eqn:P; cbn [bind] in H; try discriminate.
    unfold chk_int in H. destruct (int_ok (i + p)); cbn [bind] in H; try discriminate.
    destruct (vec_at 0%Z table (Z.land (i + p) 255)) as [q| |] eqn:Q; cbn [bind] in H; try discriminate.
    destruct (vec_at (0%Z, 0%Z) noise_directions (Z.land q 7)) as [[dx dy]| |] eqn:D; cbn [bind] in H; try discriminate.
    apply vec_at_inv in P. apply vec_at_inv in Q. apply vec_at_inv in D.
    change 255%Z with (Z.ones 8) in Q. change 7%Z with (Z.ones 3) in D.
    rewrite Z.land_ones in Q, D by lia. change (2 ^ 8)%Z with 256%Z in Q.
    change (2 ^ 3)%Z with 8%Z in D.
    assert (E : direction table i j = (dx, dy)).
    { unfold direction. rewrite <- P, <- Q. symmetry. exact D. }
    rewrite E. cbn [fst snd]. injection H as <-.
    change (smul (f := FltR)) with Rmult. change (sadd (f := FltR)) with Rplus.
    change (s_of_Z (f := FltR)) with IZR.
    match goal with |- ?l = ?r => change (@eq R l r) end. ring.
Qed.

Lemma int_ok_iff : forall n, int_ok n = true -> (-2147483648 <= n <= 2147483647)%Z.
Proof. intros n H. unfold int_ok in H. apply andb_prop in H as [A B]. apply Z.leb_le in A, B. lia. Qed.

Ltac next_corner table x y H :=
  match type of H with bind (corner_noise table ?i ?j ?a ?b) _ = _ =>
    replace a with (from_x x i j) in H
      by (unfold from_x, squeeze; cbn; rewrite ?plus_IZR; lra);
    replace b with (from_y y i j) in H
      by (unfold from_y, squeeze; cbn; rewrite ?plus_IZR; lra);
    let C := fresh "C" in
    destruct (corner_noise (K := FltR) table i j (from_x x i j) (from_y y i j)) as [?| |] eqn:C;
      cbn [bind] in H; [|discriminate|discriminate];
    apply corner_bump in C
  end.

(** The cell that holds the point, the corners that are looked at, and no overflow. *)
Lemma noise_corners : forall x y table v, simplex_noise (K := FltR) x y table = Ok v ->
  let s := (x + y) * (sqrt 3 - 1) / 2 in
  let xi := zfloor (x + s) in let yi := zfloor (y + s) in
  let below := Rltb (y + s - IZR yi) (x + s - IZR xi) in
  (int_ok xi = true /\ int_ok yi = true /\ int_ok (xi + 1) = true /\ int_ok (yi + 1) = true) /\
  v = sum (bump table x y) (corners3 xi yi below).
Proof.
  intros x y table v H s xi yi below. unfold simplex_noise in H.
  cbv zeta in H.
  match type of H with context [sfloor (sadd x ?e)] => change e with s in H end.
  rewrite !s_floor_eq in H. change (sadd (f := FltR) x s) with (x + s) in H.
  change (sadd (f := FltR) y s) with (y + s) in H. fold xi yi in H.
  destruct (int_ok xi) eqn:I1; cbn [bind] in H; [|discriminate].
  destruct (int_ok yi) eqn:I2; cbn [bind] in H; [|discriminate].
  unfold chk_int at 1 in H. destruct (int_ok (xi + yi)); cbn [bind] in H; [|discriminate].
  match type of H with context [if sltb ?a ?b then (1, 0)%Z else (0, 1)%Z] =>
    assert (Eb : sltb (f := FltR) a b = below);
    [change (Rltb a b = below); set (y0 := a) in *; set (x0 := b) in *|] end.
  { assert (X0 : x0 = from_x x xi yi).
    { unfold x0, from_x, squeeze. cbn. rewrite plus_IZR. lra. }
    assert (Y0 : y0 = from_y y xi yi).
    { unfold y0, from_y, squeeze. cbn. rewrite plus_IZR. lra. }
    rewrite X0, Y0. unfold below, Rltb, from_x, from_y.
    destruct (Rlt_dec _ _), (Rlt_dec _ _); auto; lra. }
  rewrite Eb in H. clear Eb.
  destruct below; cbv iota beta in H; unfold chk_int in H;
    repeat match type of H with context [bind (if int_ok ?n then _ else _) _] =>
      let E := fresh "J" in destruct (int_ok n) eqn:E; cbn [bind] in H; [|discriminate] end;
    next_corner table x y H; next_corner table x y H; next_corner table x y H;
    injection H as <-; (split; [auto|]);
    unfold corners3, sum; cbn [map fold_right]; rewrite ?Z.add_0_r in *;
    repeat match goal with E : _ = bump _ _ _ _ |- _ => rewrite <- E; clear E end;
    change (sadd (f := FltR)) with Rplus;
    match goal with |- ?l = ?r => change (@eq R l r) end; lra.
Qed.

Lemma noise_sum : forall x y table v l, simplex_noise (K := FltR) x y table = Ok v ->
  covers x y l -> v = sum (bump table x y) l.
Proof.
  intros x y table v l H [N C]. destruct (noise_corners x y table v H) as [_ E]. cbv zeta in E.
  rewrite E. apply sum_cover; auto using corners3_nodup.
  - intros [i j] Hn. apply bump_far. eapply others_far; [| | |exact Hn].
    + apply zfloor_spec.
    + apply zfloor_spec.
    + destruct (Rltb _ _) eqn:L; [apply Rltb_lt in L|apply Rltb_ge in L]; lra.
  - intros [i j] Hn. apply bump_far. destruct (Rlt_dec (dist2 x y i j) (/ 2)) as [L|L]; [|lra].
    exfalso. apply Hn. auto.
Qed.

Lemma noise_overflow : forall x y table v, simplex_noise (K := FltR) x y table = Ok v ->
  forall z, z = x \/ z = y ->
  -2147483648 <= z + (x + y) * (sqrt 3 - 1) / 2 < 2147483647.
Proof.
  intros x y table v H z Hz. destruct (noise_corners x y table v H) as [(A & B & C & D) _].
  apply int_ok_iff in A. apply int_ok_iff in B. apply int_ok_iff in C. apply int_ok_iff in D.
  destruct Hz as [-> | ->].
  - pose proof (zfloor_spec (x + (x + y) * (sqrt 3 - 1) / 2)) as Q.
    destruct A as [A _], C as [_ C]. apply IZR_le in A. apply IZR_le in C. rewrite plus_IZR in C. lra.
  - pose proof (zfloor_spec (y + (x + y) * (sqrt 3 - 1) / 2)) as Q.
    destruct B as [B _], D as [_ D]. apply IZR_le in B. apply IZR_le in D. rewrite plus_IZR in D. lra.
Qed.

(** ** Bounds *)
Lemma Rabs_le_inv : forall a b, Rabs a <= b -> - b <= a <= b.
Proof. intros a b H. unfold Rabs in H. destruct (Rcase_abs a); lra. Qed.
Lemma direction_small : forall table i j,
  let d := direction table i j in
  (-1 <= fst d <= 1 /\ -1 <= snd d <= 1)%Z.
Proof.
  intros table i j d. subst d. unfold direction. generalize (Z.to_nat
    (nth (Z.to_nat ((i + nth (Z.to_nat j) table 0) mod 256)) table 0 mod 8)%Z) as n.
  intros n. do 8 (destruct n as [|n]; [cbn; lia|]). destruct n; cbn; lia.
Qed.

Lemma bump_small : forall table x y c, Rabs (bump table x y c) <= / 16.
Proof.
  intros table x y [i j]. unfold bump. destruct (Rlt_dec _ _) as [L|L].
  - rewrite Rabs_R0. lra.
  - pose proof (direction_small table i j) as [[A B] [C D]]. cbv zeta in *.
    apply IZR_le in A. apply IZR_le in B. apply IZR_le in C. apply IZR_le in D.
    set (p := IZR (fst (direction table i j))) in *.
    set (q := IZR (snd (direction table i j))) in *. clearbody p q.
    unfold dist2 in *. set (a := from_x x i j) in *. set (b := from_y y i j) in *. clearbody a b.
    set (t := / 2 - (a * a + b * b)) in *.
    assert (T : 0 <= t <= / 2).
    { split; [apply Rnot_lt_le; exact L|]. unfold t. pose proof (Rle_0_sqr a) as U.
      pose proof (Rle_0_sqr b) as V. unfold Rsqr in U, V. lra. }
    rewrite Rabs_mult.
    assert (W : Rabs (a * p + b * q) <= 1).
    { assert (P2 : p * p <= 1) by nra. assert (Q2 : q * q <= 1) by nra.
      assert (AB : a * a + b * b <= / 2) by (unfold t in T; lra).
      assert (S : (a * p + b * q) * (a * p + b * q) <= 1).
      { pose proof (Rle_0_sqr (a * q - b * p)) as Z. unfold Rsqr in Z. nra. }
      unfold Rabs. destruct (Rcase_abs _); nra. }
    assert (V : 0 <= t ^ 4 <= / 16).
    { assert (E : 0 <= t * t <= / 4) by nra. cbn. nra. }
    rewrite (Rabs_right (t ^ 4)) by lra. pose proof (Rabs_pos (a * p + b * q)). nra.
Qed.

Lemma noise_small : forall x y table v, simplex_noise (K := FltR) x y table = Ok v ->
  Rabs v <= 3 / 16.
Proof.
  intros x y table v H. destruct (noise_corners x y table v H) as [_ ->].
  unfold corners3, sum. cbn [map fold_right].
  repeat match goal with |- context [bump table x y ?c] =>
    pose proof (bump_small table x y c); generalize dependent (bump table x y c); intros end.
  repeat match goal with H : Rabs _ <= _ |- _ => apply Rabs_le_inv in H end.
  apply Rabs_le. lra.
Qed.

(** ** Init *)
Lemma cell_noise_small : forall (g : ggrid FltR) amp table i j h, 0 < g_cell_z g ->
  cell_noise (K := FltR) g amp table i j = Ok h ->
  exists n, h = g_cell_z g * IZR n /\
    Rabs h <= 45 / 256 * Rabs amp + g_cell_z g / 2.
Proof.
  intros g amp table i j h C H. unfold cell_noise in H.
  destruct (rescaled (g_vect_x g) i) as [x| |]; cbn [bind] in H; try discriminate.
  destruct (rescaled (g_vect_y g) j) as [y| |]; cbn [bind] in H; try discriminate.
  do 4 match type of H with bind (simplex_noise ?a ?b ?t) _ = _ =>
    let S := fresh "S" in destruct (simplex_noise a b t) as [?| |] eqn:S;
    cbn [bind] in H; [apply noise_small, Rabs_le_inv in S|discriminate|discriminate] end.
  match type of H with context [nar (wid amp *!! ?e)%flt] => set (v := nar (wid amp *!! e)%flt) in H end.
  assert (V : exists m, v = amp * m /\ Rabs m <= 45 / 256).
  { eexists. split; [unfold v; cbn; reflexivity|]. apply Rabs_le. lra. }
  clearbody v. destruct V as (m & -> & M).
  injection H as <-. exists (zround (amp * m / g_cell_z g)). split; [reflexivity|].
  match goal with |- Rabs ?e <= _ => change e with (g_cell_z g * IZR (zround (amp * m / g_cell_z g))) end.
  pose proof (zround_spec (amp * m / g_cell_z g)) as Z.
  set (n := IZR (zround (amp * m / g_cell_z g))) in *. clearbody n.
  assert (E : amp * m = g_cell_z g * (amp * m / g_cell_z g)) by (field; apply Rgt_not_eq; exact C).
  set (q := amp * m / g_cell_z g) in *. clearbody q.
  assert (A : Rabs (g_cell_z g * q) <= 45 / 256 * Rabs amp).
  { rewrite <- E, Rabs_mult, Rmult_comm. apply Rmult_le_compat_r; auto using Rabs_pos. }
  apply Rabs_le_inv in A. apply Rabs_le. split; nra.
Qed.

(** Any point has three lattice points around it that are enough. *)
Lemma covers_exist : forall x y, exists l, covers x y l /\ length l = 3%nat.
Proof.
  intros x y. set (s := (x + y) * (sqrt 3 - 1) / 2).
  exists (corners3 (zfloor (x + s)) (zfloor (y + s))
           (Rltb (y + s - IZR (zfloor (y + s))) (x + s - IZR (zfloor (x + s))))).
  split; [|reflexivity]. split; [apply corners3_nodup|]. intros i j L.
  match goal with |- In _ ?l => destruct (mem l (i, j)) eqn:E end; [apply mem_in; auto|].
  exfalso. assert (F : / 2 <= dist2 x y i j); [|lra].
  eapply others_far; [apply zfloor_spec|apply zfloor_spec| |].
  - instantiate (1 := Rltb (y + s - IZR (zfloor (y + s))) (x + s - IZR (zfloor (x + s)))).
    fold s. destruct (Rltb _ _) eqn:Q; [apply Rltb_lt in Q|apply Rltb_ge in Q]; lra.
  - fold s. rewrite <- mem_in. congruence.
Qed.

(** A terrain without amplitude is flat. *)
Lemma cell_noise_flat : forall (g : ggrid FltR) table i j h, 0 < g_cell_z g ->
  cell_noise (K := FltR) g 0 table i j = Ok h -> h = 0.
Proof.
  intros g table i j h C H. destruct (cell_noise_small g 0 table i j h C H) as (n & -> & B).
  rewrite Rabs_R0, Rmult_0_r, Rplus_0_l in B. apply Rabs_le_inv in B.
  assert (N : -1 < IZR n < 1) by (split; nra).
  replace n with 0%Z; [match goal with |- ?l = ?r => change (@eq R l r) end; ring|].
  destruct N as [N1 N2]. apply lt_IZR in N1. apply lt_IZR in N2. lia.
Qed.

Lemma noise_sum_example :
  let table := map Z.of_nat (seq 0 256) in
  exists v l, simplex_noise (K := FltR) (/ 4) (/ 8) table = Ok v /\ covers (/ 4) (/ 8) l /\
    In (0, 0)%Z l /\ bump table (/ 4) (/ 8) (0, 0)%Z <> 0.
Proof.
  intros table. destruct (noise_ok (/ 4) (/ 8) table) as (v & E); try lra.
  { apply perm_table_ok. apply Permutation_refl. }
  destruct (covers_exist (/ 4) (/ 8)) as (l & C & _). exists v, l.
  assert (D : dist2 (/ 4) (/ 8) 0 0 = 5 / 64) by (unfold dist2, from_x, from_y, squeeze; field).
  split; auto. split; auto. split; [apply C; lra|].
  unfold bump. rewrite D. destruct (Rlt_dec _ _); [lra|].
  replace (direction table 0 0) with (1, 0)%Z by reflexivity.
  unfold from_x, from_y, squeeze. cbn [fst snd]. apply Rmult_integral_contrapositive.
  split; [apply pow_nonzero|]; lra.
Qed.

Lemma init_bound_example :
  0 < g_cell_z demo_g /\
  exists h, cell_noise (K := FltR) demo_g 20 (map Z.of_nat (fst (perm_table demo_rng))) 1 1 = Ok h.
Proof.
  destruct demo_cells as [_ ->]. split; [lra|]. destruct noise_example as (E & _).
  destruct demo_half as (X & Y & _).
  destruct (init_noise_ok _ _ _ _ _ _ 20 demo_rng 1 1 E) as (n & Q); [rewrite X; lia|rewrite Y; lia|].
  eauto.
Qed.

Lemma rescaled_val : forall s c n (i : Z) x, 0 < c -> 0 < s -> (0 <= i < Z.of_nat n)%Z ->
  rescaled (K := FltR) (levels (fun v => v + c) (- s) n) i = Ok x -> x = IZR i * c / (2 * s).
Proof.
  intros s c n i x C S I H. unfold rescaled in H.
  assert (L : Z.of_nat (length (levels (fun v : R => v + c) (- s) n)) = Z.of_nat n)
    by (rewrite levels_length; auto).
  destruct (vec_at_ok _ (s0 (K := FltR)) (levels (fun v => v + c) (- s) n) 0) as (a & Qa & _ & Ea);
    [split; [lia|]; eapply Z.lt_le_trans; [|apply Z.eq_le_incl; symmetry; exact L]; lia|].
  destruct (vec_at_ok _ (s0 (K := FltR)) (levels (fun v => v + c) (- s) n) i) as (b & Qb & _ & Eb);
    [split; [lia|]; eapply Z.lt_le_trans; [|apply Z.eq_le_incl; symmetry; exact L]; lia|].
  rewrite Qa, Qb in H. cbn [bind] in H. rewrite levels_nth in Ea, Eb by lia.
  assert (E : x = (a - b) / (2 * a)) by (injection H as <-; reflexivity).
  rewrite E, Ea, Eb. change (INR (Z.to_nat 0)) with 0. rewrite INR_IZR_INZ, Z2Nat.id by lia.
  match goal with |- ?l = ?r => change (@eq R l r) end. field. lra.
Qed.

(** The heights written by Init. *)
Lemma init_heights : forall sx sy sz cxy cz g amp table i j h l,
  rnew_grid sx sy sz cxy cz = Built g ->
  (0 <= i <= 2 * g_half_x g)%Z -> (0 <= j <= 2 * g_half_y g)%Z ->
  let x := IZR i * cxy / (2 * sx) in
  let y := IZR j * cxy / (2 * sy) in
  (forall f, In f [1; 2; 4; 8] -> covers (f * x) (f * y) (l f)) ->
  cell_noise (K := FltR) g amp table i j = Ok h ->
  exists n, h = cz * IZR n /\
    Rabs (amp * sum (fun f => / (2 * f) * sum (bump table (f * x) (f * y)) (l f)) [1; 2; 4; 8] - h)
      <= cz / 2.
Proof.
  intros sx sy sz cxy cz g amp table i j h l B I J x y V H.
  destruct (built_grid _ _ _ _ _ _ B) as ((P1 & P2 & P3 & P4 & P5) & _ & ->). clear B.
  cbn [grid_of g_half_x g_half_y] in I, J. unfold cell_noise in H.
  cbn [grid_of g_vect_x g_vect_y g_cell_z] in H.
  destruct (rescaled _ i) as [x'| |] eqn:X; cbn [bind] in H; try discriminate.
  destruct (rescaled _ j) as [y'| |] eqn:Y; cbn [bind] in H; try discriminate.
  apply rescaled_val in X; [|lra|lra|lia]. apply rescaled_val in Y; [|lra|lra|lia].
  fold x in X. fold y in Y. subst x' y'.
  match type of H with bind ?e _ = _ => destruct e as [n1| |] eqn:N1 end;
    cbn [bind] in H; try discriminate.
  match type of H with bind ?e _ = _ => destruct e as [n2| |] eqn:N2 end;
    cbn [bind] in H; try discriminate.
  match type of H with bind ?e _ = _ => destruct e as [n4| |] eqn:N4 end;
    cbn [bind] in H; try discriminate.
  match type of H with bind ?e _ = _ => destruct e as [n8| |] eqn:N8 end;
    cbn [bind] in H; try discriminate.
  apply (noise_sum _ _ _ _ (l 1)) in N1; [|apply (V 1); cbn; auto].
  apply (noise_sum _ _ _ _ (l 2)) in N2; [|apply (V 2); cbn; auto].
  apply (noise_sum _ _ _ _ (l 4)) in N4; [|apply (V 4); cbn; auto].
  apply (noise_sum _ _ _ _ (l 8)) in N8; [|apply (V 8); cbn; auto].
  change (n1 = sum (bump table (1 * x) (1 * y)) (l 1)) in N1.
  change (n2 = sum (bump table (2 * x) (2 * y)) (l 2)) in N2.
  change (n4 = sum (bump table (4 * x) (4 * y)) (l 4)) in N4.
  change (n8 = sum (bump table (8 * x) (8 * y)) (l 8)) in N8.
  set (v := amp * (1 / 2 * n1 + 1 / 4 * n2 + 1 / 8 * n4 + 1 / 16 * n8)).
  assert (E : h = cz * IZR (zround (v / cz))) by (injection H as <-; reflexivity).
  exists (zround (v / cz)). split; [exact E|].
  match goal with |- Rabs (amp * ?s - h) <= _ => replace (amp * s) with v end.
  2: { unfold v. rewrite N1, N2, N4, N8. set (f := fun f : R => / (2 * f) * _).
       change (sum f [1; 2; 4; 8]) with (f 1 + (f 2 + (f 4 + (f 8 + 0)))). unfold f. field. }
  clearbody v. rewrite E. pose proof (zround_spec (v / cz)) as Z.
  assert (Q : v = cz * (v / cz)) by (field; lra).
  set (q := v / cz) in *. set (n := IZR (zround q)) in *. clearbody q n.
  rewrite Q. apply Rabs_le. split; nra.
Qed.

Lemma init_heights_example :
  rnew_grid 4 4 4 (/ 10) (/ 10) = Built demo_g /\ (0 <= 13 <= 2 * g_half_x demo_g)%Z /\
  (0 <= 7 <= 2 * g_half_y demo_g)%Z /\
  (exists l, forall f, In f [1; 2; 4; 8] ->
     covers (f * (IZR 13 * / 10 / (2 * 4))) (f * (IZR 7 * / 10 / (2 * 4))) (l f)) /\
  exists h, cell_noise (K := FltR) demo_g 20 (map Z.of_nat (fst (perm_table demo_rng))) 13 7 = Ok h.
Proof.
  destruct noise_example as (E & _). destruct demo_half as (X & Y & _). rewrite X, Y.
  split; [exact E|]. split; [lia|]. split; [lia|]. split.
  - set (x := IZR 13 * / 10 / (2 * 4)). set (y := IZR 7 * / 10 / (2 * 4)). clearbody x y.
    destruct (covers_exist (1 * x) (1 * y)) as (l1 & V1 & _).
    destruct (covers_exist (2 * x) (2 * y)) as (l2 & V2 & _).
    destruct (covers_exist (4 * x) (4 * y)) as (l4 & V4 & _).
    destruct (covers_exist (8 * x) (8 * y)) as (l8 & V8 & _).
    exists (fun f => if Req_EM_T f 1 then l1 else if Req_EM_T f 2 then l2
                     else if Req_EM_T f 4 then l4 else l8).
    intros f [<-|[<-|[<-|[<-|[]]]]]; repeat (destruct (Req_EM_T _ _); try lra); auto.
  - destruct (init_noise_ok _ _ _ _ _ _ 20 demo_rng 13 7 E) as (n & Q);
      [rewrite X; lia|rewrite Y; lia|]. eauto.
Qed.
