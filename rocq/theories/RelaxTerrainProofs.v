(** RelaxTerrain keeps the state fine and conserves the soil. *)
From Coq Require Import ZArith List Bool Lia Permutation.
From Verif Require Import Outcome Num State Base Spec InvBase RelaxBase ModelRelax.
Import ListNotations.
Open Scope Z_scope.

Section RelaxTerrain.
  Context {upm : units}.
  Local Notation sim := (sim (ZNum upm)).
  Local Notation rec := (rec_t (ZNum upm)).
  Variable near : Pos (ZNum upm) -> Prop.
  Variable frame : Z -> Z -> Z -> Pos (ZNum upm).
  Variable g : grid_t (ZNum upm).
  Variables dh tol : Z.
  Variable cell_buffer : Z.
  Let cz : Z := cell_z g.
  Hypothesis Htol : 0 < tol.
  Hypothesis Hcz : 2 * tol < cz.
  Hypothesis Hdh : 0 <= dh.
  Hypothesis Adh : aligned cz dh.

  Local Notation good := (good near cz frame).
  Local Notation level := (level (A := ZNum upm) g dh tol).

  Lemma level_facts (a b : Z) :
    aligned cz a -> aligned cz b ->
    aligned cz (level a b) /\
    2 * level a b <= dh + a + b /\ dh + a + b <= 2 * level a b + cz.
  Proof.
    intros Aa Ab. unfold ModelRelax.level. cbn. fold cz.
    assert (AS : aligned cz (dh + a + b)) by (repeat apply aligned_add; auto).
    split; [apply aligned_mul|].
    pose proof (Z.div_mod (dh + a + b + 2 * tol) (2 * cz) ltac:(lia)) as E.
    pose proof (Z.mod_pos_bound (dh + a + b + 2 * tol) (2 * cz) ltac:(lia)) as B.
    set (q := (dh + a + b + 2 * tol) / (2 * cz)) in *.
    assert (L1 : 2 * (cz * q) <= dh + a + b).
    { apply aligned_le with (cz := cz) (t := 2 * tol); auto; try lia.
      exists (2 * q). ring. }
    assert (L2 : dh + a + b < 2 * (cz * q) + 2 * cz) by lia.
    split; auto.
        assert (dh + a + b + cz <= 2 * (cz * q) + 2 * cz); [|lia].
    apply aligned_lt; auto; try lia.
    exists (2 * q + 2). ring.
  Qed.

  (** Soil falls from [a] on [b]. *)
  Lemma level_drop (a b : Z) :
    aligned cz a -> aligned cz b -> b + tol < a - dh ->
    aligned cz (level a b) /\ 0 <= a - level a b /\
    b + (a - level a b) <= level a b - dh + cz.
  Proof.
    intros Aa Ab H. destruct (level_facts a b Aa Ab) as (L1 & L2 & L3).
    assert (b + cz <= a - dh) by (apply aligned_lt; auto; try apply aligned_sub; auto; lia).
    split; auto. lia.
  Qed.

  (** ** One avalanche from the terrain *)

  (** Soil falls from the terrain column (i, j): the surface on which it arrives goes
      up from [before] to [after], and stays below the column it came from. *)
  Definition fall (s s' : sim) (i j before after : Z) : Prop :=
    exists h, 0 <= h /\ aligned cz h /\ before + tol < (terrain s i j : Z) - dh /\
      (terrain s' i j : Z) = (terrain s i j : Z) - h /\ after = before + h /\
      after <= (terrain s i j : Z) - dh.

  Lemma fall_intro (s s' : sim) i j (h before after : Z) :
    aligned cz (terrain s i j) -> aligned cz before ->
    before + tol < (terrain s i j : Z) - dh ->
    0 <= h <= (terrain s i j : Z) - level (terrain s i j) before -> aligned cz h ->
    (terrain s' i j : Z) = (terrain s i j : Z) - h -> after = before + h ->
    fall s s' i j before after.
  Proof.
    intros At Ab Hs Hh Ah Ht ->.
    destruct (level_drop _ _ At Ab Hs) as (L1 & L2 & L3).
    exists h. do 5 (split; [auto; lia|]).
    destruct (Z.eq_dec h 0) as [->|N]; [lia|].
    pose proof (aligned_lt cz 0 h ltac:(lia) (aligned_0 cz) Ah ltac:(lia)). lia.
  Qed.

  Lemma terrain_onto_body_soil_good (s : sim) two k i j ic jc :
    good s (records s) -> on_grid s i j -> on_grid s ic jc ->
    layer k -> body_at s k ic jc -> soil_on s k ic jc ->
    (two = true <-> body_at s (2 - k) ic jc) ->
    (body_soil s (k + 1) ic jc : Z) + tol < (terrain s i j : Z) - dh ->
    let s' := terrain_onto_body_soil (A := ZNum upm) frame g dh tol s two k (2 - k) i j ic jc in
    (good s' (records s') /\ flows s s') /\
    fall s s' i j (column_top s k ic jc) (body_soil s' (k + 1) ic jc).
  Proof.
    intros Hgood Hg Hgc Hk Hb Hs Htwo Hslope s'.
    destruct (good_aligned _ _ _ _ Hgood Hg) as [At _].
    destruct (good_aligned _ _ _ _ Hgood Hgc) as [_ Ac].
    assert (Hk4 : 0 <= k < 4 /\ 0 <= k + 1 < 4 /\ 0 <= 2 - k < 4)
      by (unfold layer in Hk; lia).
    destruct (Ac (k + 1)) as [Ab1 As1]; [lia|].
    destruct (Ac (2 - k)) as [Abo _]; [lia|].
    destruct (level_drop _ _ At As1 Hslope) as (L1 & L2 & L3).
    set (t := terrain s i j : Z) in *. set (top := body_soil s (k + 1) ic jc : Z) in *.
    set (bo := body s (2 - k) ic jc : Z) in *.
    pose (h := if two && (body s (k + 1) ic jc <? bo)
                      && (bo <? top + (t - level t top) - tol)
               then bo - top else t - level t top).
    assert (Htop : column_top s k ic jc = top).
    { unfold column_top. rewrite (proj2 (soil_present_spec s k ic jc)); auto. }
    assert (Hbs : (body_soil s k ic jc : Z) = body s (k + 1) ic jc).
    { apply (good_soil_cell _ _ _ _ Hgood Hgc k Hk); auto. }
    destruct (good_body_cell _ _ _ _ Hgood Hgc) as [Hcb _].
    destruct (Hcb k Hk Hb) as [_ Hlt].
    assert (Hh : 0 <= h /\ aligned cz h /\
                 (body_at s (2 - k) ic jc -> (body s k ic jc : Z) < bo -> top + h <= bo)).
    { unfold h. destruct (_ && _) eqn:E.
      - rewrite !andb_true_iff, !Z.ltb_lt in E. destruct E as ((Et & E1) & E2).
        pose proof (proj1 Htwo Et) as Ho. split; [|split].
        + destruct Hgood as (_ & _ & SB & _).
          specialize (SB ic jc k Hgc Hk Hs Ho ltac:(fold bo; lia)). fold top bo in SB. lia.
        + apply aligned_sub; auto.
        + lia.
      - split; [auto|]. split; [apply aligned_sub; auto|]. intros Ho Hl.
        pose proof (good_disjoint _ _ k ic jc Hgood Hgc Hk Hb Ho Hl) as D. fold bo in D.
        rewrite (proj2 Htwo Ho) in E. rewrite (proj2 (Z.ltb_lt _ _) D) in E.
        cbn [andb] in E. apply Z.ltb_ge in E.
        apply aligned_le with (cz := cz) (t := tol); auto; try lia.
        apply aligned_add; auto. apply aligned_sub; auto. }
    destruct Hh as (Hh0 & Ah & Hh1).
    set (e := @mkRec (ZNum upm) k ic jc (frame ic jc (body s (k + 1) ic jc)) h).
    assert (Es' : s' = push_record (set_bs (set_t s i j (t - h)) (k + 1) ic jc (top + h)) e).
    { unfold s', terrain_onto_body_soil, e, h. cbv zeta. fold t top bo. zn.
      fold t top bo. fold (level t top).
      destruct (_ && _).
      - replace (top + (bo - top)) with bo by lia. reflexivity.
      - replace (t - (t - level t top)) with (level t top) by lia. reflexivity. }
    assert (Hok : rec_ok near cz s e) by (eapply new_rec_ok; eauto).
    destruct (good_terrain_body near cz frame s (records s) s' i j h e) as [G T]; auto.
    - rewrite Es'. unfold e. cbn [e_ind e_i e_j]. rewrite Htop.
      split; [split; auto|]. split; [intros i' j'; reflexivity|].
      split; [intros k' i' j'; reflexivity|]. upds. split; [|split].
      + rewrite <- Hbs. eqbs; auto; lia.
      + rewrite !Z.eqb_refl. reflexivity.
      + intros k' i' j' N. eqbs; auto; tauto.
    - unfold e. cbn [e_ind e_i e_j]. rewrite Htop. auto.
    - split; [split|].
      + rewrite Es'. cbn [records push_record set_records set_bs set_t]. rewrite <- Es'. auto.
      + apply flows_intro; try (rewrite Es'; split; reflexivity);
          try (rewrite Es'; reflexivity); auto.
      + rewrite Htop. apply (fall_intro s s' i j h); auto; fold t.
        * split; [auto|]. unfold h. destruct (_ && _) eqn:E; [|lia].
          rewrite !andb_true_iff, !Z.ltb_lt in E. lia.
        * rewrite Es'. upds. rewrite !Z.eqb_refl. reflexivity.
        * rewrite Es'. upds. rewrite !Z.eqb_refl. reflexivity.
  Qed.

  Lemma terrain_onto_body_good (s : sim) two k i j ic jc :
    good s (records s) -> on_grid s i j -> on_grid s ic jc ->
    layer k -> body_at s k ic jc -> ~ soil_on s k ic jc ->
    (two = true <-> body_at s (2 - k) ic jc) ->
    (body s (k + 1) ic jc : Z) + tol < (terrain s i j : Z) - dh ->
    let s' := terrain_onto_body (A := ZNum upm) frame g dh tol s two k (2 - k) i j ic jc in
    (good s' (records s') /\ flows s s') /\
    fall s s' i j (column_top s k ic jc) (body_soil s' (k + 1) ic jc).
  Proof.
    intros Hgood Hg Hgc Hk Hb Hs Htwo Hslope s'.
    destruct (good_aligned _ _ _ _ Hgood Hg) as [At _].
    destruct (good_aligned _ _ _ _ Hgood Hgc) as [_ Ac].
    assert (Hk4 : 0 <= k < 4 /\ 0 <= k + 1 < 4 /\ 0 <= 2 - k < 4)
      by (unfold layer in Hk; lia).
    destruct (Ac (k + 1)) as [Ab1 _]; [lia|].
    destruct (Ac (2 - k)) as [Abo _]; [lia|].
    destruct (level_drop _ _ At Ab1 Hslope) as (L1 & L2 & L3).
    set (t := terrain s i j : Z) in *. set (top := body s (k + 1) ic jc : Z) in *.
    set (bo := body s (2 - k) ic jc : Z) in *.
    pose (h := if two && (top <? bo) && (bo <? t + top - level t top - tol)
               then bo - top else t - level t top).
    assert (Htop : column_top s k ic jc = top).
    { unfold column_top. destruct (soil_present s k ic jc) eqn:E; auto.
      apply soil_present_spec in E. contradiction. }
    destruct (good_body_cell _ _ _ _ Hgood Hgc) as [Hcb _].
    destruct (Hcb k Hk Hb) as [_ Hlt].
    assert (Hh : 0 <= h /\ aligned cz h /\
                 (body_at s (2 - k) ic jc -> (body s k ic jc : Z) < bo -> top + h <= bo)).
    { unfold h. destruct (_ && _) eqn:E.
      - rewrite !andb_true_iff, !Z.ltb_lt in E. destruct E as ((Et & E1) & E2).
        split; [|split].
        + lia.
        + apply aligned_sub; auto.
        + lia.
      - split; [auto|]. split; [apply aligned_sub; auto|]. intros Ho Hl.
        pose proof (good_disjoint _ _ k ic jc Hgood Hgc Hk Hb Ho Hl) as D.
        fold bo top in D.
        rewrite (proj2 Htwo Ho) in E. rewrite (proj2 (Z.ltb_lt _ _) D) in E.
        cbn [andb] in E. apply Z.ltb_ge in E.
        apply aligned_le with (cz := cz) (t := tol); auto; try lia.
        apply aligned_add; auto. apply aligned_sub; auto. }
    destruct Hh as (Hh0 & Ah & Hh1).
    set (e := @mkRec (ZNum upm) k ic jc (frame ic jc (body s (k + 1) ic jc)) h).
    assert (Es' : s' = push_record (set_bs (set_bs (set_t s i j (t - h)) k ic jc top)
                                      (k + 1) ic jc (top + h)) e).
    { unfold s', terrain_onto_body, e, h. cbv zeta. fold t top bo. zn.
      fold t top bo. fold (level t top).
      destruct (_ && _).
      - replace (top + (bo - top)) with bo by lia.
        replace (t - (bo - top)) with (t - bo + top) by lia. reflexivity.
      - replace (t - (t - level t top)) with (level t top) by lia.
        replace (top + (t - level t top)) with (t + top - level t top) by lia.
        replace (t + top - level t top - top) with (t - level t top) by lia.
        reflexivity. }
    assert (Hok : rec_ok near cz s e) by (eapply new_rec_ok; eauto).
    destruct (good_terrain_body near cz frame s (records s) s' i j h e) as [G T]; auto.
    - rewrite Es'. unfold e. cbn [e_ind e_i e_j]. rewrite Htop.
      split; [split; auto|]. split; [intros i' j'; reflexivity|].
      split; [intros k' i' j'; reflexivity|]. upds. split; [|split].
      + eqbs; auto; lia.
      + rewrite !Z.eqb_refl. reflexivity.
      + intros k' i' j' N. eqbs; auto; tauto.
    - unfold e. cbn [e_ind e_i e_j]. rewrite Htop. auto.
    - split; [split|].
      + rewrite Es'. cbn [records push_record set_records set_bs set_t]. rewrite <- Es'. auto.
      + apply flows_intro; try (rewrite Es'; split; reflexivity);
          try (rewrite Es'; reflexivity); auto.
      + rewrite Htop. apply (fall_intro s s' i j h); auto; fold t.
        * split; [auto|]. unfold h. destruct (_ && _) eqn:E; [|lia].
          rewrite !andb_true_iff, !Z.ltb_lt in E. lia.
        * rewrite Es'. upds. rewrite !Z.eqb_refl. reflexivity.
        * rewrite Es'. upds. rewrite !Z.eqb_refl. reflexivity.
  Qed.

  (** ** CheckUnstableTerrainCell *)

  (** The meaning of the status codes: what the neighbour looks like. *)
  Definition terrain_status (s : sim) (i j h_min st : Z) : Prop :=
    (terrain s i j : Z) + tol < h_min /\
    ((st = 40 /\ ~ body_at s 0 i j /\ ~ body_at s 2 i j) \/
     (st = 10 /\ body_at s 0 i j /\ ~ body_at s 2 i j /\
      (terrain s i j : Z) + tol < (body s 0 i j : Z)) \/
     (st = 20 /\ ~ body_at s 0 i j /\ body_at s 2 i j /\
      (terrain s i j : Z) + tol < (body s 2 i j : Z)) \/
     (st = 30 /\ body_at s 0 i j /\ body_at s 2 i j /\
      (terrain s i j : Z) + tol < (body s 0 i j : Z) /\
      (terrain s i j : Z) + tol < (body s 2 i j : Z)) \/
     (exists k d0, layer k /\ body_at s k i j /\ (d0 = 1 \/ d0 = 2 \/ d0 = 3) /\
        (d0 = 3 <-> body_at s (2 - k) i j) /\
        column_top s k i j + tol < h_min /\
        ((soil_on s k i j /\ st = 10 * d0 + (3 - k)) \/
         (~ soil_on s k i j /\ st = 10 * d0 + (4 - k))))).

  Lemma check_terrain_status (s : sim) i j h_min :
    check_unstable_terrain_cell (A := ZNum upm) tol s i j h_min = 0 \/
    terrain_status s i j h_min
      (check_unstable_terrain_cell (A := ZNum upm) tol s i j h_min).
  Proof.
    unfold check_unstable_terrain_cell, terrain_status. zn.
    destruct (Z.ltb_spec (terrain s i j + tol) h_min) as [H0|]; [|auto].
    destruct (body_absent s 0 i j) eqn:E0; cbn [andb].
    all: destruct (body_absent s 2 i j) eqn:E2.
    all: try apply body_absent_true in E0; try apply body_absent_true in E2;
         try apply body_absent_spec in E0; try apply body_absent_spec in E2.
    - right. split; auto.
    - destruct (Z.ltb_spec (terrain s i j + tol) (body s 2 i j)).
      { right. split; auto. right; right; left. auto. }
      destruct (soil_present s 2 i j) eqn:S.
      + apply soil_present_spec in S as S'.
        destruct (Z.ltb_spec (body_soil s 3 i j + tol) h_min); [|auto].
        right. split; auto. do 4 right. exists 2, 2. unfold column_top. rewrite S. kred.
        split; [right; auto|]. repeat split; auto; try lia; try tauto.
      + destruct (Z.ltb_spec (body s 3 i j + tol) h_min); [|auto].
        assert (S' : ~ soil_on s 2 i j) by (rewrite <- soil_present_spec; congruence).
        right. split; auto. do 4 right. exists 2, 2. unfold column_top. rewrite S. kred.
        split; [right; auto|]. repeat split; auto; try lia; try tauto.
    - destruct (Z.ltb_spec (terrain s i j + tol) (body s 0 i j)).
      { right. split; auto. right; left. auto. }
      destruct (soil_present s 0 i j) eqn:S.
      + apply soil_present_spec in S as S'.
        destruct (Z.ltb_spec (body_soil s 1 i j + tol) h_min); [|auto].
        right. split; auto. do 4 right. exists 0, 1. unfold column_top. rewrite S. kred.
        split; [left; auto|]. repeat split; auto; try lia; try tauto.
      + destruct (Z.ltb_spec (body s 1 i j + tol) h_min); [|auto].
        assert (S' : ~ soil_on s 0 i j) by (rewrite <- soil_present_spec; congruence).
        right. split; auto. do 4 right. exists 0, 1. unfold column_top. rewrite S. kred.
        split; [left; auto|]. repeat split; auto; try lia; try tauto.
    - assert (S0 : soil_present s 0 i j = true /\ soil_on s 0 i j \/
                   soil_present s 0 i j = false /\ ~ soil_on s 0 i j).
      { rewrite <- soil_present_spec. destruct (soil_present s 0 i j); auto. }
      assert (S2 : soil_present s 2 i j = true /\ soil_on s 2 i j \/
                   soil_present s 2 i j = false /\ ~ soil_on s 2 i j).
      { rewrite <- soil_present_spec. destruct (soil_present s 2 i j); auto. }
      destruct (Z.ltb_spec (body s 0 i j) (body s 2 i j)); cbv zeta beta iota; kred.
      + destruct (Z.ltb_spec (terrain s i j + tol) (body s 0 i j)).
        { right. split; auto. right; right; right; left. repeat split; auto. lia. }
        destruct S0 as [[S0 S0']|[S0 S0']]; rewrite S0.
        * destruct (Z.ltb_spec (body s 2 i j) (body_soil s 1 i j + tol)).
          -- destruct S2 as [[S2 S2']|[S2 S2']]; rewrite S2.
             ++ destruct (Z.ltb_spec (body_soil s 3 i j + tol) h_min); [|auto].
                right. split; auto. do 4 right. exists 2, 3. unfold column_top.
                rewrite S2. kred. split; [right; auto|]. repeat split; auto; lia || tauto.
             ++ destruct (Z.ltb_spec (body s 3 i j + tol) h_min); [|auto].
                right. split; auto. do 4 right. exists 2, 3. unfold column_top.
                rewrite S2. kred. split; [right; auto|]. repeat split; auto; lia || tauto.
          -- destruct (Z.ltb_spec (body_soil s 1 i j + tol) h_min); [|auto].
             right. split; auto. do 4 right. exists 0, 3. unfold column_top.
             rewrite S0. kred. split; [left; auto|]. repeat split; auto; lia || tauto.
        * destruct (Z.ltb_spec (body s 1 i j + tol) h_min); [|auto].
          right. split; auto. do 4 right. exists 0, 3. unfold column_top.
          rewrite S0. kred. split; [left; auto|]. repeat split; auto; lia || tauto.
      + destruct (Z.ltb_spec (terrain s i j + tol) (body s 2 i j)).
        { right. split; auto. right; right; right; left. repeat split; auto. lia. }
        destruct S2 as [[S2 S2']|[S2 S2']]; rewrite S2.
        * destruct (Z.ltb_spec (body s 0 i j) (body_soil s 3 i j + tol)).
          -- destruct S0 as [[S0 S0']|[S0 S0']]; rewrite S0.
             ++ destruct (Z.ltb_spec (body_soil s 1 i j + tol) h_min); [|auto].
                right. split; auto. do 4 right. exists 0, 3. unfold column_top.
                rewrite S0. kred. split; [left; auto|]. repeat split; auto; lia || tauto.
             ++ destruct (Z.ltb_spec (body s 1 i j + tol) h_min); [|auto].
                right. split; auto. do 4 right. exists 0, 3. unfold column_top.
                rewrite S0. kred. split; [left; auto|]. repeat split; auto; lia || tauto.
          -- destruct (Z.ltb_spec (body_soil s 3 i j + tol) h_min); [|auto].
             right. split; auto. do 4 right. exists 2, 3. unfold column_top.
             rewrite S2. kred. split; [right; auto|]. repeat split; auto; lia || tauto.
        * destruct (Z.ltb_spec (body s 3 i j + tol) h_min); [|auto].
          right. split; auto. do 4 right. exists 2, 3. unfold column_top.
          rewrite S2. kred. split; [right; auto|]. repeat split; auto; lia || tauto.
  Qed.

  (** ** RelaxUnstableTerrainCell *)

  Lemma terrain_to_terrain_good (s : sim) i j ic jc (v vc : Z) :
    good s (records s) -> on_grid s i j -> on_grid s ic jc -> (ic, jc) <> (i, j) ->
    aligned cz v -> aligned cz vc ->
    v + vc = (terrain s i j : Z) + (terrain s ic jc : Z) ->
    v <= (terrain s i j : Z) ->
    (terrain s ic jc : Z) + tol < (terrain s i j : Z) - dh ->
    level (terrain s i j) (terrain s ic jc) <= v ->
    (forall k, layer k -> body_at s k ic jc -> vc <= (body s k ic jc : Z)) ->
    let s' := set_t (A := ZNum upm) (set_t (A := ZNum upm) s i j v) ic jc vc in
    (good s' (records s') /\ flows s s') /\
    fall s s' i j (terrain s ic jc) (terrain s' ic jc).
  Proof.
    intros Hgood Hg Hgc N Av Avc Hsum Hle Hslope Hlv Hb s'.
    destruct (good_aligned _ _ _ _ Hgood Hg) as [At _].
    destruct (good_aligned _ _ _ _ Hgood Hgc) as [Atc _].
    destruct (good_terrain_terrain near cz frame s (records s) i j ic jc v vc)
      as [G T]; auto.
    split; [split; auto; apply flows_intro; auto; try (split; reflexivity)|].
    apply (fall_intro s s' i j (terrain s i j - v)); auto; try lia.
    - apply aligned_sub; auto.
    - unfold s'. upds. eqbs; zn; try lia. exfalso; apply N; congruence.
    - unfold s'. upds. rewrite !Z.eqb_refl. cbn [andb]. lia.
  Qed.

  (** Where the soil arrives, by the second digit of the status. *)
  Definition arrival (s s' : sim) (st i j ic jc : Z) : Prop :=
    (st mod 10 = 0 /\ fall s s' i j (terrain s ic jc) (terrain s' ic jc)) \/
    (exists k, layer k /\ body_at s k ic jc /\
       (soil_on s k ic jc /\ st mod 10 = 3 - k \/ ~ soil_on s k ic jc /\ st mod 10 = 4 - k) /\
       fall s s' i j (column_top s k ic jc) (body_soil s' (k + 1) ic jc)).

  Lemma relax_unstable_terrain_cell_good (s : sim) st i j ic jc :
    good s (records s) -> on_grid s i j -> on_grid s ic jc -> (ic, jc) <> (i, j) ->
    terrain_status s ic jc ((terrain s i j : Z) - dh) st ->
    returns (relax_unstable_terrain_cell (A := ZNum upm) frame g dh tol s st i j ic jc)
      (fun s' => (good s' (records s') /\ flows s s') /\ arrival s s' st i j ic jc).
  Proof.
    intros Hgood Hg Hgc N [Hlow Hst].
    destruct (good_aligned _ _ _ _ Hgood Hg) as [At _].
    destruct (good_aligned _ _ _ _ Hgood Hgc) as [Atc Ac].
    destruct (level_drop _ _ At Atc Hlow) as (L1 & L2 & L3).
    set (t := terrain s i j : Z) in *. set (tc := terrain s ic jc : Z) in *.
    (* the soil goes below the body *)
    assert (Under : forall bot : Z, aligned cz bot -> tc + tol < bot ->
      (forall k, layer k -> body_at s k ic jc -> bot <= (body s k ic jc : Z)) ->
      st mod 10 = 0 ->
      returns (if t + tc - level t tc <? bot
               then Ok (set_t (A := ZNum upm) (set_t (A := ZNum upm) s i j (level t tc)) ic jc (t + tc - level t tc))
               else Ok (set_t (A := ZNum upm) (set_t (A := ZNum upm) s i j (t + tc - bot)) ic jc bot))
        (fun s' => (good s' (records s') /\ flows s s') /\ arrival s s' st i j ic jc)).
    { intros bot Ab Hb1 Hb2 Hmod.
      assert (Wrap : forall s', (good s' (records s') /\ flows s s') /\
          fall s s' i j (terrain s ic jc) (terrain s' ic jc) ->
        (good s' (records s') /\ flows s s') /\ arrival s s' st i j ic jc).
      { intros s' [W1 W2]. split; [auto|]. left. auto. }
      destruct (Z.ltb_spec (t + tc - level t tc) bot); cbn [returns]; apply Wrap;
        apply terrain_to_terrain_good; auto; fold t tc; try lia.
      - apply aligned_sub; auto. apply aligned_add; auto.
      - intros k Hk Hbk. specialize (Hb2 k Hk Hbk). lia.
      - apply aligned_sub; auto. apply aligned_add; auto. }
    destruct Hst as [(-> & B0 & B2)|[(-> & B0 & B2 & Hb)|[(-> & B0 & B2 & Hb)|
      [(-> & B0 & B2 & Hb0 & Hb2)|(k & d0 & Hk & Hb & Hd0 & Htwo & Hct & Hs)]]]].
    - unfold relax_unstable_terrain_cell.
      change (40 / 10) with 4; change (40 mod 10) with 0. cbn -[set_t ModelRelax.level arrival].
      match goal with |- ?P /\ arrival _ ?s' _ _ _ _ _ =>
        assert (W : P /\ fall s s' i j (terrain s ic jc) (terrain s' ic jc));
          [|destruct W as [W1 W2]; split; [exact W1|left; auto]] end.
      apply terrain_to_terrain_good; auto.
      + apply aligned_sub; auto. apply aligned_add; auto.
      + zn. fold t tc (level t tc). lia.
      + fold t tc. lia.
      + fold t tc (level t tc). lia.
      + intros k [->| ->]; tauto.
    - unfold relax_unstable_terrain_cell.
      change (10 / 10) with 1; change (10 mod 10) with 0. cbn -[set_t ModelRelax.level arrival].
      apply (Under (body s 0 ic jc)); auto.
      + apply Ac; lia.
      + intros k [->| ->]; try tauto. intros; lia.
    - unfold relax_unstable_terrain_cell.
      change (20 / 10) with 2; change (20 mod 10) with 0. cbn -[set_t ModelRelax.level arrival].
      apply (Under (body s 2 ic jc)); auto.
      + apply Ac; lia.
      + intros k [->| ->]; try tauto. intros; lia.
    - unfold relax_unstable_terrain_cell.
      change (30 / 10) with 3; change (30 mod 10) with 0. cbn -[set_t ModelRelax.level fmin arrival].
      apply (Under (fmin (A := ZNum upm) (body s 0 ic jc) (body s 2 ic jc))).
      + unfold fmin; zn. destruct (Z.ltb _ _); apply Ac; lia.
      + unfold fmin; zn. destruct (Z.ltb _ _); auto.
      + intros k Hk _. unfold fmin. zn.
        destruct (Z.ltb_spec (body s 2 ic jc) (body s 0 ic jc));
          destruct Hk as [->| ->]; lia.
      + reflexivity.
    - assert (Two : (d0 =? 3) = true <-> body_at s (2 - k) ic jc)
        by (rewrite Z.eqb_eq; auto).
      unfold relax_unstable_terrain_cell.
      assert (Land : forall s' k, layer k -> body_at s k ic jc ->
        (soil_on s k ic jc /\ st mod 10 = 3 - k \/ ~ soil_on s k ic jc /\ st mod 10 = 4 - k) ->
        (good s' (records s') /\ flows s s') /\
          fall s s' i j (column_top s k ic jc) (body_soil s' (k + 1) ic jc) ->
        (good s' (records s') /\ flows s s') /\ arrival s s' st i j ic jc).
      { intros s' k0 W1 W2 W3 [W4 W5]. split; [auto|]. right. exists k0. auto. }
      destruct Hs as [(Hs & ->)|(Hs & ->)].
      + destruct (digits d0 (3 - k)) as [D1 D2]; [destruct Hk as [->| ->]; lia|].
        rewrite D1, D2 in *. clear D1 D2.
        assert (Hct' : (body_soil s (k + 1) ic jc : Z) + tol < t - dh).
        { unfold column_top in Hct. rewrite (proj2 (soil_present_spec _ _ _ _)) in Hct; auto. }
        destruct Hk as [->| ->]; cbn -[terrain_onto_body_soil Z.eqb];
        change (3 - 0 =? 0) with false; change (3 - 0 =? 1) with false;
        change (3 - 0 =? 2) with false; change (3 - 0 =? 3) with true;
        change (3 - 2 =? 0) with false; change (3 - 2 =? 1) with true; cbv iota.
        * apply Land with (k := 0); [left; auto|auto|left; auto|].
          apply (terrain_onto_body_soil_good s (d0 =? 3) 0); auto. left; auto.
        * apply Land with (k := 2); [right; auto|auto|left; auto|].
          apply (terrain_onto_body_soil_good s (d0 =? 3) 2); auto. right; auto.
      + destruct (digits d0 (4 - k)) as [D1 D2]; [destruct Hk as [->| ->]; lia|].
        rewrite D1, D2 in *. clear D1 D2.
        assert (Hct' : (body s (k + 1) ic jc : Z) + tol < t - dh).
        { unfold column_top in Hct. destruct (soil_present s k ic jc) eqn:E; auto.
          apply soil_present_spec in E. contradiction. }
        destruct Hk as [->| ->]; cbn -[terrain_onto_body Z.eqb];
        change (4 - 0 =? 0) with false; change (4 - 0 =? 1) with false;
        change (4 - 0 =? 2) with false; change (4 - 0 =? 3) with false;
        change (4 - 0 =? 4) with true;
        change (4 - 2 =? 0) with false; change (4 - 2 =? 1) with false;
        change (4 - 2 =? 2) with true; cbv iota.
        * apply Land with (k := 0); [left; auto|auto|right; auto|].
          apply (terrain_onto_body_good s (d0 =? 3) 0); auto. left; auto.
        * apply Land with (k := 2); [right; auto|auto|right; auto|].
          apply (terrain_onto_body_good s (d0 =? 3) 2); auto. right; auto.
  Qed.

  (** ** RelaxTerrain *)

  Lemma relax_terrain_dir_good (s : sim) i j d :
    good s (records s) -> inside s i j -> In d directions4 ->
    returns (relax_terrain_dir (A := ZNum upm) frame g dh tol i j d s)
      (fun s' => good s' (records s') /\ flows s s').
  Proof.
    intros Hgood Hin Hd. unfold relax_terrain_dir.
    destruct (directions4_neighbour d i j Hd) as (N & H1 & H2).
    set (ic := i + fst d) in *. set (jc := j + snd d) in *.
    assert (Hg : on_grid s i j) by (unfold inside, on_grid in *; lia).
    assert (Hgc : on_grid s ic jc) by (unfold inside, on_grid in *; lia).
    apply returns_guard.
    { rewrite (proj2 (inb_true s i j) Hg), (proj2 (inb_true s ic jc) Hgc). auto. }
    zn. destruct (check_terrain_status s ic jc (terrain s i j - dh)) as [E|E].
    - rewrite E. cbn. split; auto. apply flows_refl.
    - destruct (Z.eqb_spec (check_unstable_terrain_cell (A := ZNum upm) tol s ic jc
         (terrain s i j - dh)) 0); [cbn; split; auto; apply flows_refl|].
      assert (SH : same_heights s (set_equilibrium s false)) by (repeat split).
      eapply returns_weaken.
      + apply relax_unstable_terrain_cell_good; eauto.
      + cbv beta. intros s' [[G Fl] _]. split; auto.
  Qed.

  Definition in_box (s : sim) (b : area) : Prop :=
    0 <= x_lo b <= nx s /\ 0 <= x_hi b <= nx s /\
    0 <= y_lo b <= ny s /\ 0 <= y_hi b <= ny s.

  Definition terrain_loop (s0 : sim) (st : sim * area * list (Z * Z)) : Prop :=
    let '(s, box, dirs) := st in
    good s (records s) /\ flows s0 s /\ in_box s0 box /\
    Permutation dirs directions4.

  Lemma relax_terrain_cell_good (s0 : sim) c st :
    inside s0 (fst c) (snd c) -> terrain_loop s0 st ->
    returns (relax_terrain_cell (A := ZNum upm) frame g dh tol c st) (terrain_loop s0).
  Proof.
    destruct st as [[s box] dirs], c as [i j]. cbn [fst snd].
    intros Hin (Hgood & Hfl & Hbox & P). unfold relax_terrain_cell.
    destruct (shuffle dirs (rng s)) as [dirs' r] eqn:Sh.
    apply shuffle_eq in Sh.
    assert (P' : Permutation dirs' directions4) by (rewrite Sh; auto).
    eapply returns_bind with (P := fun s' => good s' (records s') /\ flows s0 s').
    - apply for_each_returns.
      + intros d s1 Hd [G1 F1].
        eapply returns_weaken; [apply relax_terrain_dir_good; auto|].
        * eapply flows_inside; eauto.
        * eapply Permutation_in; eauto.
        * cbn. intros s2 [G2 F2]. split; auto. eapply flows_trans; eauto.
      + split.
        * eapply good_same; [|exact Hgood]. repeat split.
        * eapply flows_trans; [exact Hfl|]. repeat split.
    - intros s' [G Fl]. cbn. split; auto. split; auto. split; auto.
      unfold in_box, grow_box, inside in *. cbn. lia.
  Qed.

  Lemma locate_unstable_terrain_cell_in (s : sim) :
    (forall i j, in_area (impact_area s) i j -> inside s i j) ->
    returns (locate_unstable_terrain_cell (A := ZNum upm) dh tol s)
      (Forall (fun c => in_area (impact_area s) (fst c) (snd c))).
  Proof.
    intros Hin. unfold locate_unstable_terrain_cell. apply for_each_returns; auto.
    intros [i j] acc Hc Hacc. apply in_area_cells in Hc.
    cbn [fst snd]. unfold unstable_candidate.
    specialize (Hin i j Hc).
    rewrite !(fun a b => proj2 (inb_true s a b))
      by (unfold on_grid, inside in *; lia).
    cbn [andb guard bind returns]. zn. destruct (_ || _); auto.
    apply Forall_app. auto.
  Qed.

  Definition fits (s : sim) : Prop :=
    nx s = 2 * half_x g + 1 /\ ny s = 2 * half_y g + 1.

  Hypothesis Hcb : 0 <= cell_buffer.

  Definition int_room (s : sim) : Prop :=
    nx s + cell_buffer <= 2147483647 /\ ny s + cell_buffer <= 2147483647.

  Lemma relax_terrain_good (s : sim) :
    good s (records s) -> fits s -> int_room s -> area_in s (impact_area s) ->
    area_in s (relax_area s) ->
    returns (relax_terrain (A := ZNum upm) frame g dh cell_buffer tol s)
      (fun s' => good s' (records s') /\ flows_w s s' /\
                 impact_area s' = impact_area s /\ area_in s (relax_area s')).
  Proof.
    intros Hgood Hfit Hroom Hia Hra. unfold relax_terrain.
    set (s0 := set_equilibrium s true).
    assert (SH : same_heights s s0) by (repeat split).
    assert (F0 : flows s s0) by (repeat split).
    eapply returns_bind.
    { apply locate_unstable_terrain_cell_in. intros i j Hij.
      eapply area_in_inside; [|exact Hij]. exact Hia. }
    intros cells Hcells.
    assert (Hcells' : Forall (fun c => inside s0 (fst c) (snd c)) cells).
    { eapply Forall_impl; [|exact Hcells]. intros [i j] Hij.
      eapply area_in_inside; [|exact Hij]. exact Hia. }
    destruct cells as [|c cells0] eqn:Ec.
    { cbn. split; [eapply good_same; eauto|]. split; [apply F0|]. auto. }
    rewrite <- Ec in *. clear Hcells Ec c cells0.
    destruct (shuffle cells (rng s0)) as [cells' r] eqn:Sh.
    apply shuffle_eq in Sh.
    eapply returns_bind with (P := terrain_loop s0).
    - apply for_each_returns.
      + intros c st Hc Hst. apply relax_terrain_cell_good; auto.
        eapply Forall_forall in Hcells'; eauto. eapply Permutation_in; eauto.
      + split; [eapply good_same; [|exact Hgood]; repeat split|].
        split; [repeat split|]. split; [|auto].
        unfold in_box, fits in *. cbn in *.
        destruct Hgood as ((N1 & N2 & _) & _). lia.
    - intros [[s1 box] dirs] (G1 & Fl1 & Hbox & _).
      unfold in_box, int_room, fits in *. cbn in Hbox.
      rewrite !chk_int_ok by lia. cbn [bind returns].
      split; [eapply good_same; [|exact G1]; repeat split|].
      split; [eapply flows_w_trans; [apply F0|]; apply Fl1|].
      split; [apply Fl1|]. unfold area_in. cbn. lia.
  Qed.
End RelaxTerrain.
