(** CheckVolume and CheckSoil. *)
From Coq Require Import ZArith List Bool Lia.
From Verif Require Import Outcome Num State Base Spec InvBase ModelRelax RelaxBase
  BodySoilProofs ModelBodySoil ModelBodyPos ModelUtils ModelStep Spec2 StepProofs.
Import ListNotations.
Open Scope Z_scope.

(** ** Sums over the cells of the grid *)
Fixpoint lsum {X} (f : X -> Z) (l : list X) : Z :=
  match l with [] => 0 | x :: l' => f x + lsum f l' end.

Lemma lsum_app {X} (f : X -> Z) l l' : lsum f (l ++ l') = lsum f l + lsum f l'.
Proof. induction l; simpl; lia. Qed.

Lemma lsum_map {X Y} (f : Y -> Z) (h : X -> Y) l : lsum f (map h l) = lsum (fun x => f (h x)) l.
Proof. induction l; simpl; lia. Qed.

Lemma lsum_ext {X} (f h : X -> Z) l : (forall x, f x = h x) -> lsum f l = lsum h l.
Proof. intros E. induction l; simpl; auto. rewrite E. lia. Qed.

Lemma lsum_flat_map {X Y} (f : Y -> Z) (h : X -> list Y) l :
  lsum f (flat_map h l) = lsum (fun x => lsum f (h x)) l.
Proof. induction l; simpl; auto. rewrite lsum_app. lia. Qed.

Lemma lsum_zrange f n : lsum f (zrange 0 n) = sum_to (Z.to_nat n) f.
Proof.
  unfold zrange. rewrite lsum_map. replace (n - 0) with n by lia.
  induction (Z.to_nat n) as [|m IH]; [reflexivity|].
  rewrite seq_S, lsum_app, IH. cbn [lsum sum_to Nat.add]. rewrite Z.add_0_l. lia.
Qed.

Lemma lsum_area f n m :
  lsum (fun c => f (fst c) (snd c)) (area_cells (mkArea 0 n 0 m)) = sum2 n m f.
Proof.
  unfold area_cells, sum2. cbn [x_lo x_hi y_lo y_hi].
  rewrite lsum_flat_map, lsum_zrange. apply sum_to_ext. intros i _.
  rewrite lsum_map. cbn [fst snd]. apply lsum_zrange.
Qed.

Section CheckProofs.
  Context {upm : units}.
  Local Notation sim := (sim (ZNum upm)).
  Local Notation rec := (rec_t (ZNum upm)).
  Variable cz : Z.

  (** ** CheckVolume *)

  (** Number of cells of height [cz] in a column of height [h]. *)
  Definition cells_in (h : Z) : Z := round_half_away h cz.

  (** Total number of cells, and the same with absolute values. *)
  Definition volume (s : sim) : Z :=
    sum2 (nx s) (ny s) (fun i j => cells_in (terrain s i j)) +
    sum2 (nx s) (ny s) (fun i j => cells_in (soil_height s 0 i j) +
                                  cells_in (soil_height s 2 i j)).
  Definition abs_volume (s : sim) : Z :=
    sum2 (nx s) (ny s) (fun i j => Z.abs (cells_in (terrain s i j))) +
    sum2 (nx s) (ny s) (fun i j => Z.abs (cells_in (soil_height s 0 i j)) +
                                  Z.abs (cells_in (soil_height s 2 i j))).

  Lemma int_ok_true z : int_ok z = true <-> -2147483648 <= z <= 2147483647.
  Proof. unfold int_ok. rewrite andb_true_iff, !Z.leb_le. tauto. Qed.

  Lemma add_count_ok (h v : Z) :
    Z.abs v + Z.abs (cells_in h) <= 2147483647 ->
    add_count (A := ZNum upm) h cz v = Ok (v + cells_in h).
  Proof.
    intros H. unfold add_count. cbn. fold (cells_in h).
    rewrite (proj2 (int_ok_true (v + cells_in h))) by lia. reflexivity.
  Qed.

  Lemma lsum_abs_nonneg {X} (f : X -> Z) l : (forall x, 0 <= f x) -> 0 <= lsum f l.
  Proof. intros H. induction l as [|x l IH]; simpl; [lia|]. specialize (H x). lia. Qed.

  Lemma terrain_volume_loop (s : sim) l : forall v,
    Z.abs v + lsum (fun c => Z.abs (cells_in (terrain s (fst c) (snd c)))) l <= 2147483647 ->
    for_each l (fun c v => add_count (A := ZNum upm) (terrain s (fst c) (snd c)) cz v) v =
    Ok (v + lsum (fun c => cells_in (terrain s (fst c) (snd c))) l).
  Proof.
    induction l as [|c l IH]; intros v H; cbn [for_each lsum] in *.
    - f_equal. lia.
    - pose proof (lsum_abs_nonneg (fun c => Z.abs (cells_in (terrain s (fst c) (snd c)))) l
        ltac:(intros; lia)).
      rewrite add_count_ok by lia. cbn [bind]. rewrite IH by lia. f_equal. lia.
  Qed.

  Hypothesis Hcz : 0 < cz.

  Lemma cells_in_0 : cells_in 0 = 0.
  Proof. unfold cells_in, round_half_away. cbn [Z.leb Z.compare].
    rewrite Z.div_small by lia. reflexivity. Qed.

  Lemma layer_count (s : sim) k i j v :
    Z.abs v + Z.abs (cells_in (soil_height s k i j)) <= 2147483647 ->
    (if soil_present s k i j
     then add_count (A := ZNum upm) (body_soil s (k + 1) i j - body_soil s k i j : Z) cz v
     else Ok v) = Ok (v + cells_in (soil_height s k i j)).
  Proof.
    intros H. destruct (soil_present s k i j) eqn:E.
    - apply add_count_ok. exact H.
    - apply soil_present_false in E as [E1 E2].
      unfold soil_height. rewrite E1, E2. change (0 - 0) with 0. rewrite cells_in_0.
      f_equal. lia.
  Qed.

  Lemma body_soil_volume_loop (s : sim) l : forall v,
    Z.abs v + lsum (fun c => Z.abs (cells_in (soil_height s 0 (fst c) (snd c))) +
                            Z.abs (cells_in (soil_height s 2 (fst c) (snd c)))) l
      <= 2147483647 ->
    for_each l
      (fun c v =>
         let '(i, j) := c in
         let layer k v :=
           if soil_present s k i j
           then add_count (A := ZNum upm) (fsub (body_soil s (k + 1) i j) (body_soil s k i j)) cz v
           else Ok v in
         v <- layer 0 v ;; layer 2 v) v =
    Ok (v + lsum (fun c => cells_in (soil_height s 0 (fst c) (snd c)) +
                          cells_in (soil_height s 2 (fst c) (snd c))) l).
  Proof.
    induction l as [|[i j] l IH]; intros v H; cbn [for_each lsum fst snd] in *.
    - f_equal. lia.
    - pose proof (lsum_abs_nonneg
        (fun c => Z.abs (cells_in (soil_height s 0 (fst c) (snd c))) +
                  Z.abs (cells_in (soil_height s 2 (fst c) (snd c)))) l
        ltac:(intros; lia)).
      cbv zeta. pose proof (layer_count s 0 i j v) as L0. zn. rewrite L0 by lia.
      cbn [bind].
      pose proof (layer_count s 2 i j (v + cells_in (soil_height s 0 i j))) as L2. zn.
      rewrite L2 by lia. cbn [bind]. rewrite IH by lia. f_equal. lia.
  Qed.

  Definition records_in (s : sim) : Prop :=
    Forall (fun e => layer (e_ind e) /\ on_grid s (e_i e) (e_j e)) (records s).

  Lemma subtract_records_ok (s : sim) :
    records_in s ->
    returns (subtract_records (A := ZNum upm) s)
      (fun f => forall k i j, layer k ->
         f k i j = body_soil s k i j /\
         (f (k + 1) i j : Z) = (body_soil s (k + 1) i j : Z) - recorded (records s) k i j).
  Proof.
    unfold records_in, subtract_records. intros H.
    eapply returns_weaken.
    - apply (for_each_returns_rest _ (fun rest (f : Z -> Z -> Z -> F (ZNum upm)) =>
        Forall (fun e => layer (e_ind e) /\ on_grid s (e_i e) (e_j e)) rest /\
        forall k i j, layer k -> f k i j = body_soil s k i j /\
          (f (k + 1) i j : Z) = (body_soil s (k + 1) i j : Z) - recorded (records s) k i j
                               + recorded rest k i j)).
      + intros e rest f [Hf Hr]. inversion Hf as [|? ? [Lk Hg] Hf']; subst.
        assert (Hl : layer_ok (e_ind e) = true)
          by (unfold layer_ok; destruct Lk as [->| ->]; reflexivity).
        apply inb_true in Hg. rewrite Hl, Hg. cbn [andb guard returns].
        split; [auto|]. intros k i j Hk. destruct (Hr k i j Hk) as [R1 R2].
        destruct (Hr (e_ind e) i j Lk) as [_ R3].
        unfold upd3. split.
        * assert (N : (k =? e_ind e + 1) = false)
            by (apply Z.eqb_neq; unfold layer in *; lia).
          rewrite N. exact R1.
        * cbn [recorded] in R2, R3. unfold matches in R2, R3.
          destruct (Z.eqb_spec (k + 1) (e_ind e + 1)) as [E|E].
          -- assert (k = e_ind e) by lia. subst k. rewrite Z.eqb_refl in R2. cbn [andb] in *.
             rewrite (Z.eqb_sym i), (Z.eqb_sym j).
             destruct (Z.eqb_spec (e_i e) i) as [->|]; [destruct (Z.eqb_spec (e_j e) j) as [->|]|];
               cbn [andb] in *; zn; lia.
          -- assert (N : (e_ind e =? k) = false) by (apply Z.eqb_neq; lia).
             rewrite N in R2. cbn [andb] in *. zn. lia.
      + split; [auto|]. intros k i j Hk. split; [auto|]. lia.
    - cbv beta. intros f [_ Hr] k i j Hk. destruct (Hr k i j Hk) as [R1 R2].
      cbn [recorded] in R2. split; [auto|lia].
  Qed.

  (** The records agree with the columns, up to [tol]. *)
  Definition agree (tol : Z) (s : sim) : Prop :=
    forall k i j, layer k -> on_grid s i j ->
      Z.abs (soil_height s k i j - recorded (records s) k i j) <= tol.

  Lemma in_all_cells (s : sim) i j : In (i, j) (all_cells s) <-> on_grid s i j.
  Proof. unfold all_cells. rewrite in_area_cells. unfold in_area, on_grid. cbn. tauto. Qed.

  Lemma mismatch_spec tol (s : sim) f :
    (forall k i j, layer k ->
       f k i j = body_soil s k i j /\
       (f (k + 1) i j : Z) = (body_soil s (k + 1) i j : Z) - recorded (records s) k i j) ->
    existsb (fun c => records_mismatch (A := ZNum upm) tol f (fst c) (snd c)) (all_cells s) = false
    <-> agree tol s.
  Proof.
    intros Hf. unfold agree. rewrite <- not_true_iff_false, existsb_exists.
    split.
    - intros H k i j Hk Hg.
      destruct (Z.le_gt_cases (Z.abs (soil_height s k i j - recorded (records s) k i j)) tol)
        as [Q|Q]; [auto|]. exfalso. apply H. exists (i, j).
      split; [apply in_all_cells; auto|]. unfold records_mismatch. cbn [fst snd].
      destruct (Hf 0 i j (or_introl eq_refl)) as [A0 A1].
      destruct (Hf 2 i j (or_intror eq_refl)) as [A2 A3].
      kred. zn. rewrite A0, A1, A2, A3. unfold soil_height in Q.
      apply orb_true_iff. rewrite !Z.ltb_lt.
      destruct Hk as [->| ->]; kred; zn; [left|right]; lia.
    - intros H ([i j] & Hin & M). apply in_all_cells in Hin. cbn [fst snd] in M.
      unfold records_mismatch in M.
      destruct (Hf 0 i j (or_introl eq_refl)) as [A0 A1].
      destruct (Hf 2 i j (or_intror eq_refl)) as [A2 A3].
      pose proof (H 0 i j (or_introl eq_refl) Hin) as Q0.
      pose proof (H 2 i j (or_intror eq_refl) Hin) as Q2.
      unfold soil_height in *. kred. zn. rewrite A0, A1, A2, A3 in M.
      apply orb_true_iff in M. rewrite !Z.ltb_lt in M. lia.
  Qed.

  Lemma check_volume_result tol (v : Z) (s : sim) :
    records_in s -> abs_volume s <= 2147483647 ->
    (agree tol s /\ volume s = v /\
       check_volume (A := ZNum upm) tol cz v s = Ok (s, true)) \/
    (~ (agree tol s /\ volume s = v) /\
       exists w, check_volume (A := ZNum upm) tol cz v s = Ok (warn s w, false)).
  Proof.
    intros Hr Hv. unfold check_volume.
    pose proof (subtract_records_ok s Hr) as Hf.
    destruct (subtract_records (A := ZNum upm) s) as [f|u|]; try contradiction.
    cbn [returns] in Hf. cbn [bind].
    pose proof (mismatch_spec tol s f Hf) as M.
    destruct (existsb _ (all_cells s)).
    - right. split; [|eauto]. intros [H _]. apply M in H. discriminate.
    - assert (Ag : agree tol s) by (apply M; reflexivity).
      unfold abs_volume in Hv.
      set (f1 := fun i j => Z.abs (cells_in (terrain s i j))) in *.
      set (f2 := fun i j => Z.abs (cells_in (soil_height s 0 i j)) +
                            Z.abs (cells_in (soil_height s 2 i j))) in *.
      assert (N1 : 0 <= sum2 (nx s) (ny s) f1) by (apply sum2_nonneg; intros; unfold f1; lia).
      assert (N2 : 0 <= sum2 (nx s) (ny s) f2) by (apply sum2_nonneg; intros; unfold f2; lia).
      assert (TV : terrain_volume (A := ZNum upm) cz s =
        Ok (sum2 (nx s) (ny s) (fun i j => cells_in (terrain s i j)))).
      { etransitivity; [apply (terrain_volume_loop s (all_cells s) 0)|].
        - unfold all_cells.
          rewrite (lsum_area (fun i j => Z.abs (cells_in (terrain s i j)))).
          fold f1. lia.
        - unfold all_cells.
          rewrite (lsum_area (fun i j => cells_in (terrain s i j))).
          reflexivity. }
      assert (BV : body_soil_volume (A := ZNum upm) cz s =
        Ok (sum2 (nx s) (ny s) (fun i j => cells_in (soil_height s 0 i j) +
                                          cells_in (soil_height s 2 i j)))).
      { etransitivity; [apply (body_soil_volume_loop s (all_cells s) 0)|].
        - unfold all_cells.
          rewrite (lsum_area (fun i j => Z.abs (cells_in (soil_height s 0 i j)) +
                            Z.abs (cells_in (soil_height s 2 i j)))).
          fold f2. lia.
        - unfold all_cells.
          rewrite (lsum_area (fun i j => cells_in (soil_height s 0 i j) +
                            cells_in (soil_height s 2 i j))).
          reflexivity. }
      rewrite TV, BV.
      cbn [bind].
      set (g1 := fun i j => cells_in (terrain s i j)) in *.
      set (g2 := fun i j => cells_in (soil_height s 0 i j) + cells_in (soil_height s 2 i j)) in *.
      assert (B1 : Z.abs (sum2 (nx s) (ny s) g1) <= sum2 (nx s) (ny s) f1).
      { rewrite <- !lsum_area. unfold g1, f1.
        induction (area_cells (mkArea 0 (nx s) 0 (ny s))); simpl; lia. }
      assert (B2 : Z.abs (sum2 (nx s) (ny s) g2) <= sum2 (nx s) (ny s) f2).
      { rewrite <- !lsum_area. unfold g2, f2.
        induction (area_cells (mkArea 0 (nx s) 0 (ny s))); simpl; lia. }
      rewrite chk_int_ok by lia. cbn [bind].
      change (sum2 (nx s) (ny s) g1 + sum2 (nx s) (ny s) g2) with (volume s).
      destruct (Z.eqb_spec (volume s) v) as [E|E]; cbn [negb].
      + left. split; [exact Ag|]. split; [exact E|]. reflexivity.
      + right. split; [tauto|eauto].
  Qed.

  (** The same without assuming that the sums fit: an answer is always exact. *)
  Lemma add_count_inv (h v r : Z) :
    add_count (A := ZNum upm) h cz v = Ok r -> r = v + cells_in h.
  Proof.
    unfold add_count. cbn. fold (cells_in h). destruct (int_ok _); [|discriminate].
    intros H; inversion H; reflexivity.
  Qed.

  Lemma lsum_for_each {X} (f : X -> Z -> outcome Z) (h : X -> Z) l : forall v r,
    (forall x v r, f x v = Ok r -> r = v + h x) ->
    for_each l f v = Ok r -> r = v + lsum h l.
  Proof.
    induction l as [|x l IH]; intros v r Hf E; cbn [for_each lsum] in *.
    - inversion E; lia.
    - apply bind_ok in E as (v1 & E1 & E2). apply Hf in E1. apply IH in E2; auto. lia.
  Qed.

  Lemma check_volume_inv tol (v : Z) (s s' : sim) b :
    records_in s ->
    check_volume (A := ZNum upm) tol cz v s = Ok (s', b) ->
    (b = true <-> agree tol s /\ volume s = v) /\
    (b = true -> s' = s) /\ (b = false -> exists w, s' = warn s w).
  Proof.
    unfold check_volume. intros Hr E.
    apply bind_ok in E as (f & Ef & E).
    pose proof (subtract_records_ok s Hr) as Hf.
    rewrite Ef in Hf. cbn [returns] in Hf.
    pose proof (mismatch_spec tol s f Hf) as M.
    destruct (existsb _ (all_cells s)).
    - inversion E; subst. split; [|split; [discriminate|eauto]].
      split; [discriminate|]. intros [H _]. apply M in H. discriminate.
    - apply bind_ok in E as (tv & Et & E). apply bind_ok in E as (bv & Eb & E).
      apply bind_ok in E as (t & Ec & E).
      unfold terrain_volume in Et.
      apply (lsum_for_each _ (fun c => cells_in (terrain s (fst c) (snd c)))) in Et;
        [|intros x v0 r; apply add_count_inv].
      unfold all_cells in Et. rewrite (lsum_area (fun i j => cells_in (terrain s i j))) in Et.
      unfold body_soil_volume in Eb.
      apply (lsum_for_each _ (fun c => cells_in (soil_height s 0 (fst c) (snd c)) +
                                     cells_in (soil_height s 2 (fst c) (snd c)))) in Eb.
      2: { intros [i j] v0 r Er. apply bind_ok in Er as (v1 & E1 & E2). cbn [fst snd].
           assert (L : forall k v r,
             (if soil_present s k i j
              then add_count (A := ZNum upm) (body_soil s (k + 1) i j - body_soil s k i j : Z) cz v
              else Ok v) = Ok r -> r = v + cells_in (soil_height s k i j)).
           { intros k v2 r2. destruct (soil_present s k i j) eqn:Q; [apply add_count_inv|].
             apply soil_present_false in Q as [Q1 Q2]. unfold soil_height. rewrite Q1, Q2.
             change (0 - 0) with 0. rewrite cells_in_0. intros H; inversion H; lia. }
           apply (L 0) in E1. apply (L 2) in E2. lia. }
      unfold all_cells in Eb.
      rewrite (lsum_area (fun i j => cells_in (soil_height s 0 i j) +
                                     cells_in (soil_height s 2 i j))) in Eb.
      assert (Hv : t = volume s).
      { unfold chk_int in Ec. destruct (int_ok _); inversion Ec. subst. reflexivity. }
      clear Et Eb Ec. subst t.
      destruct (Z.eqb_spec (volume s) v) as [Q|Q]; cbn [negb] in E; inversion E; subst.
      + split; [|split; [auto|discriminate]]. split; [|auto]. intros _. split; [|auto].
        apply M; reflexivity.
      + split; [|split; [discriminate|eauto]]. split; [discriminate|tauto].
  Qed.

  (** On aligned heights, the count is exact. *)
  Lemma cells_in_aligned h : aligned cz h -> cz * cells_in h = h.
  Proof.
    intros [q ->].
    enough (E : cells_in (q * cz) = q) by (rewrite E; lia).
    unfold cells_in, round_half_away.
    destruct (Z.leb_spec 0 (q * cz)).
    - replace (2 * (q * cz) + cz) with (cz + q * (2 * cz)) by lia.
      rewrite Z.div_add, Z.div_small by lia. lia.
    - replace (2 * - (q * cz) + cz) with (cz + (- q) * (2 * cz)) by lia.
      rewrite Z.div_add, Z.div_small by lia. lia.
  Qed.

  Lemma sum2_scale n m c f : sum2 n m (fun i j => c * f i j) = c * sum2 n m f.
  Proof.
    rewrite <- !lsum_area.
    induction (area_cells (mkArea 0 n 0 m)) as [|x l IH]; simpl; lia.
  Qed.

  Lemma volume_total near (s : sim) l :
    consistent near cz s l -> cz * volume s = total_soil s.
  Proof.
    intros (_ & _ & H & _). unfold volume, total_soil.
    rewrite <- sum2_add, <- sum2_scale. apply sum2_ext. intros i j Hi Hj.
    destruct (H i j (conj Hi Hj)) as ((A1 & A2) & _).
    assert (As : forall k, layer k -> aligned cz (soil_height s k i j)).
    { intros k Hk. unfold soil_height. apply aligned_sub; apply A2; unfold layer in Hk; lia. }
    pose proof (cells_in_aligned _ A1) as E.
    pose proof (cells_in_aligned _ (As 0 (or_introl eq_refl))) as E0.
    pose proof (cells_in_aligned _ (As 2 (or_intror eq_refl))) as E2.
    unfold soil_at. zn. lia.
  Qed.

  Lemma consistent_agree near (s : sim) tol :
    0 <= tol -> consistent near cz s (records s) -> agree tol s.
  Proof.
    intros Ht (_ & _ & H & _) k i j Hk Hg. destruct (H i j Hg) as (_ & _ & A).
    destruct (A k Hk) as [_ ->]. lia.
  Qed.

  Lemma consistent_records_in near (s : sim) :
    consistent near cz s (records s) -> records_in s.
  Proof.
    intros (_ & _ & _ & H). eapply Forall_impl; [|exact H].
    intros e (Hk & Hi & _). split; [auto|]. unfold inside, on_grid in *. lia.
  Qed.

  (** ** CheckSoil *)

  (** The conventions checked at one cell, with tolerance. *)
  Definition conventions (tol : Z) (s : sim) (i j : Z) : Prop :=
    let b k := (body s k i j : Z) in
    let bs k := (body_soil s k i j : Z) in
    (forall k, layer k -> body_at s k i j ->
       (terrain s i j : Z) <= b k + tol /\ b k <= b (k + 1) - tol) /\
    (body_at s 0 i j -> body_at s 2 i j -> b 1 + tol <= b 2 \/ b 3 + tol <= b 0) /\
    (forall k, layer k -> soil_on s k i j ->
       bs k <= bs (k + 1) + tol /\ b (k + 1) <= bs k + tol /\
       body_at s k i j /\ bs k = b (k + 1) /\
       (body_at s (2 - k) i j ->
          b (2 - k + 1) - tol <= bs k \/ bs (k + 1) - tol <= b (2 - k))).

  Lemma cell_ok_spec tol (s : sim) i j :
    cell_ok (A := ZNum upm) tol s i j = true <-> conventions tol s i j.
  Proof.
    unfold cell_ok, conventions. cbv zeta.
    pose proof (body_present_spec s 0 i j) as B0. pose proof (body_present_spec s 2 i j) as B2.
    pose proof (soil_present_spec s 0 i j) as S0. pose proof (soil_present_spec s 2 i j) as S2.
    rewrite negb_true_iff. rewrite !orb_false_iff.
    destruct (body_present s 0 i j); destruct (body_present s 2 i j);
      destruct (soil_present s 0 i j); destruct (soil_present s 2 i j); cbn [andb negb];
      rewrite ?andb_false_iff, ?Z.ltb_ge; zn; rewrite ?negb_false_iff, ?Z.ltb_ge, ?Z.eqb_eq;
    (split;
      [ intros H; split; [intros k [->| ->]|split; [|intros k [->| ->]]]; kred; intros
      | intros (H1 & H2 & H3);
        pose proof (H1 0 (or_introl eq_refl)); pose proof (H1 2 (or_intror eq_refl));
        pose proof (H3 0 (or_introl eq_refl)); pose proof (H3 2 (or_intror eq_refl));
        clear H1 H3; kred ]).
    all: assert (NB : false <> true) by discriminate.
    all: intuition congruence.
  Qed.

  Lemma check_soil_result tol (s : sim) :
    (forall i j, in_area (body_area s) i j -> on_grid s i j) ->
    ((forall i j, in_area (body_area s) i j -> conventions tol s i j) /\
       check_soil (A := ZNum upm) tol s = Ok (s, true)) \/
    ((exists i j, in_area (body_area s) i j /\ ~ conventions tol s i j) /\
       check_soil (A := ZNum upm) tol s = Ok (warn s WSoil, false)).
  Proof.
    intros Hin. unfold check_soil.
    assert (H1 : forall i j, In (i, j) (area_cells (body_area s)) -> on_grid s i j)
      by (intros i j H; apply Hin, in_area_cells; auto).
    assert (H2 : forall l, (forall i j, In (i, j) l -> on_grid s i j) ->
      ((forall i j, In (i, j) l -> conventions tol s i j) /\
       check_soil_loop (A := ZNum upm) tol l s = Ok (s, true)) \/
      ((exists i j, In (i, j) l /\ ~ conventions tol s i j) /\
       check_soil_loop (A := ZNum upm) tol l s = Ok (warn s WSoil, false))).
    { clear. induction l as [|[i j] l IH]; intros Hl; cbn [check_soil_loop].
      - left. split; [intros i j []|reflexivity].
      - rewrite (proj2 (inb_true s i j)) by (apply Hl; left; auto). cbn [guard].
        destruct (cell_ok (A := ZNum upm) tol s i j) eqn:C.
        + apply cell_ok_spec in C.
          destruct IH as [[I1 I2]|[(i' & j' & I1 & I3) I2]].
          * intros i' j' H; apply Hl; right; auto.
          * left. split; [|exact I2]. intros i' j' [H|H]; [inversion H; subst; auto|auto].
          * right. split; [|exact I2]. exists i', j'. split; [right; auto|auto].
        + right. split; [|reflexivity]. exists i, j. split; [left; auto|].
          intros Q. apply cell_ok_spec in Q. congruence. }
    destruct (H2 _ H1) as [[I1 I2]|[(i & j & I1 & I3) I2]].
    - left. split; [|exact I2]. intros i j H. apply I1, in_area_cells; auto.
    - right. split; [|exact I2]. exists i, j. split; [apply in_area_cells; auto|auto].
  Qed.

  Lemma consistent_conventions near tol (s : sim) i j :
    0 < tol -> 2 * tol < cz ->
    consistent near cz s (records s) -> terrain_below s -> soil_below s ->
    on_grid s i j -> conventions tol s i j.
  Proof.
    intros T1 T2 (_ & _ & H & Hr) Ht Hs Hg.
    destruct (H i j Hg) as ((A1 & A2) & (B1 & B2) & S).
    assert (Ab : forall k, 0 <= k < 4 -> aligned cz (body s k i j)) by (intros; apply A2; auto).
    assert (As : forall k, 0 <= k < 4 -> aligned cz (body_soil s k i j)) by (intros; apply A2; auto).
    assert (Lt : forall a b, aligned cz a -> aligned cz b -> a < b -> a + tol <= b).
    { intros a b Qa Qb Q. pose proof (aligned_lt cz a b Hcz Qa Qb Q). lia. }
    assert (Nn : forall k, layer k -> 0 <= soil_height s k i j).
    { intros k Hk. destruct (S k Hk) as [_ ->]. apply recorded_nonneg.
      eapply Forall_impl; [|exact Hr]. intros e He; apply He. }
    unfold conventions. cbv zeta. split; [|split].
    - intros k Hk Hb. pose proof (Ht i j k Hg Hk Hb). destruct (B1 k Hk Hb) as [_ Q].
      apply Lt in Q; [|apply Ab; unfold layer in Hk; lia|apply Ab; unfold layer in Hk; lia].
      split; lia.
    - intros Hb0 Hb2. destruct (B2 Hb0 Hb2) as [Q|Q]; apply Lt in Q; auto;
        try (apply Ab; lia); lia.
    - intros k Hk Hsk. destruct (S k Hk) as [S1 _]. destruct (S1 Hsk) as (Bk & E & _).
      specialize (Nn k Hk). unfold soil_height in Nn. zn.
      assert (E' : (body_soil s k i j : Z) = (body s (k + 1) i j : Z)) by exact E.
      split; [lia|]. split; [lia|]. split; [auto|]. split; [auto|].
      intros Hb'. destruct (B1 k Hk Bk) as [_ Qk].
      assert (Hk' : layer (2 - k)) by (unfold layer in *; lia).
      destruct (B1 _ Hk' Hb') as [_ Qk'].
      destruct (Z.lt_ge_cases (body s k i j) (body s (2 - k) i j)) as [L|L].
      + right. pose proof (Hs i j k Hg Hk Hsk Hb' L). lia.
      + left. destruct Hk as [->| ->]; kred.
        * destruct (B2 Bk Hb') as [Q|Q]; lia.
        * destruct (B2 Hb' Bk) as [Q|Q]; lia.
  Qed.
End CheckProofs.

Section RunChecks.
  Context {upm : units}.
  Variable g : grid_t (ZNum upm).
  Variable G : geom (ZNum upm).
  Variable legal : pose G -> Prop.
  Variable near : Pos (ZNum upm) -> Prop.
  Variable P : params (ZNum upm).
  Hypothesis Hg : grid_ok g.
  Hypothesis HP : params_ok g P.
  Hypothesis HG : geom_ok g G legal near.

  Lemma state_ok_area (w : world G) i j :
    state_ok g G legal near w -> in_area (body_area (fst w)) i j -> on_grid (fst w) i j.
  Proof.
    destruct w as [s old]. intros ([E1 E2] & _ & _ & _ & _ & W & _) H. cbn [fst] in *.
    unfold within_grid, in_area, on_grid in *. rewrite E1, E2. lia.
  Qed.

  Theorem state_ok_check_soil (w : world G) :
    state_ok g G legal near w ->
    check_soil (A := ZNum upm) (p_tol P) (fst w) = Ok (fst w, true).
  Proof.
    intros Hw.
    destruct (check_soil_result (p_tol P) (fst w) (fun i j => state_ok_area w i j Hw))
      as [[_ H]|[(i & j & Hi & N) _]]; [exact H|].
    exfalso. apply N. pose proof (state_ok_area w i j Hw Hi) as Q.
    destruct w as [s old]. destruct Hw as (_ & C & T & S & _).
    destruct HP as (P1 & P2 & _). destruct Hg as (_ & _ & Hz & _).
    eapply (consistent_conventions (cell_z g)); eauto.
  Qed.

  Theorem run_check_volume ps fuel (w w' : world G) (v : Z) (s1 : sim (ZNum upm)) :
    state_ok g G legal near w -> Forall legal ps ->
    check_volume (A := ZNum upm) (p_tol P) (cell_z g) v (fst w) = Ok (s1, true) ->
    run G g P fuel ps w = Ok w' ->
    (forall new, wlog (fst w') = wlog (fst w) ++ new -> ~ In WRemoved new) ->
    abs_volume (cell_z g) (fst w') <= 2147483647 ->
    check_volume (A := ZNum upm) (p_tol P) (cell_z g) v (fst w') = Ok (fst w', true).
  Proof.
    intros Hw Hps Hv Hrun Hlog Hfit.
    destruct Hg as (_ & _ & Hz & _). destruct HP as (P1 & _).
    destruct (run_total g G legal near P Hg HP HG ps w Hw Hps)
      as (w2 & (N & E) & Hw2 & (new & L & _ & B)).
    assert (w2 = w').
    { specialize (E (Nat.max N fuel) ltac:(lia)).
      pose proof (StepFuel.run_fuel G g P fuel (Nat.max N fuel) ps ltac:(lia) w) as R.
      eapply StepFuel.refines_ok in R; [|exact Hrun]. congruence. }
    subst w2.
    assert (T : total_soil (fst w') = total_soil (fst w)).
    { destruct (Z.eq_dec (total_soil (fst w')) (total_soil (fst w))) as [Q|Q]; [auto|].
      exfalso. apply (Hlog new L). apply B. exact Q. }
    destruct w as [s old], w' as [s' old']. cbn [fst] in *.
    destruct Hw as (_ & C & _). destruct Hw2 as (_ & C' & _).
    apply check_volume_inv in Hv as ((Hv & _) & _);
      [|exact Hz|eapply consistent_records_in; eauto].
    destruct (Hv eq_refl) as [_ V].
    pose proof (volume_total (cell_z g) Hz near s _ C) as V1.
    pose proof (volume_total (cell_z g) Hz near s' _ C') as V2.
    destruct (check_volume_result (cell_z g) Hz (p_tol P) v s') as [(_ & _ & Q)|[Q _]]; auto.
    - eapply consistent_records_in; eauto.
    - exfalso. apply Q. split.
      + eapply consistent_agree; eauto. lia.
      + rewrite <- V. apply (Z.mul_reg_l _ _ (cell_z g)); [lia|].
        rewrite V1, V2. exact T.
  Qed.
End RunChecks.
