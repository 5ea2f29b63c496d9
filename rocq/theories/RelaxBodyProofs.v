(** RelaxBodySoil keeps the state fine and conserves the soil. *)
From Coq Require Import ZArith List Bool Lia Permutation.
From Verif Require Import Outcome Num State Base Spec InvBase RelaxBase ModelRelax
  RelaxTerrainProofs.
Import ListNotations.
Open Scope Z_scope.

Section RelaxBody.
  Context {upm : units}.
  Local Notation sim := (sim (ZNum upm)).
  Local Notation rec := (rec_t (ZNum upm)).
  Variable near : Pos (ZNum upm) -> Prop.
  Variable frame : Z -> Z -> Z -> Pos (ZNum upm).
  Variable g : grid_t (ZNum upm).
  Variables dh tol : Z.
  Let cz : Z := cell_z g.
  Hypothesis Htol : 0 < tol.
  Hypothesis Hcz : 2 * tol < cz.
  Hypothesis Hdh : 0 <= dh.
  Hypothesis Adh : aligned cz dh.

  Local Notation good := (good near cz frame).
  Local Notation level := (level (A := ZNum upm) g dh tol).

  (** ** CheckUnstableBodyCell *)

  Definition body_status (s : sim) (i0 j0 ind i j h_min st : Z) : Prop :=
    let base : Z := body s (ind + 1) i0 j0 in
    (st = 40 /\ ~ body_at s 0 i j /\ ~ body_at s 2 i j /\
     (terrain s i j : Z) + tol < h_min) \/
    (st = 10 /\ body_at s 0 i j /\ ~ body_at s 2 i j /\
     base + tol < (body s 0 i j : Z) /\ (terrain s i j : Z) + tol < h_min) \/
    (st = 20 /\ ~ body_at s 0 i j /\ body_at s 2 i j /\
     base + tol < (body s 2 i j : Z) /\ (terrain s i j : Z) + tol < h_min) \/
    (exists k d0, layer k /\ body_at s k i j /\
       ((d0 = 1 /\ k = 0 /\ ~ body_at s 2 i j) \/
        (d0 = 2 /\ k = 2 /\ ~ body_at s 0 i j) \/
        (d0 = 3 /\ body_at s (2 - k) i j)) /\
       column_top s k i j + tol < h_min /\
       (d0 = 3 -> (body s k i j : Z) < body s (2 - k) i j ->
        base + tol < (body s (2 - k) i j : Z)) /\
       (d0 <> 3 -> (body s k i j : Z) <= base + tol) /\
       ((soil_on s k i j /\ st = 10 * d0 + (3 - k)) \/
        (~ soil_on s k i j /\ st = 10 * d0 + (4 - k)))).

  Lemma soil_cases (s : sim) k i j :
    soil_present s k i j = true /\ soil_on s k i j \/
    soil_present s k i j = false /\ ~ soil_on s k i j.
  Proof.
    rewrite <- soil_present_spec. destruct (soil_present s k i j); auto.
  Qed.

  (** Never uninitialised; and the meaning of the result. *)
  Lemma check_body_status (s : sim) i0 j0 ind i j h_min :
    exists st,
      check_unstable_body_cell (A := ZNum upm) tol s i0 j0 ind i j h_min = Some st /\
      (st = 0 \/ body_status s i0 j0 ind i j h_min st).
  Proof.
    unfold check_unstable_body_cell, body_status. zn.
    set (base := body s (ind + 1) i0 j0).
    destruct (body_absent s 0 i j) eqn:E0; cbn [andb].
    all: destruct (body_absent s 2 i j) eqn:E2.
    all: try apply body_absent_true in E0; try apply body_absent_true in E2;
         try apply body_absent_spec in E0; try apply body_absent_spec in E2.
    - eexists; split; [reflexivity|].
      destruct (Z.ltb_spec (terrain s i j + tol) h_min); [|auto].
      right; left. auto.
    - eexists; split; [reflexivity|].
      destruct (Z.ltb_spec (base + tol) (body s 2 i j)).
      + destruct (Z.ltb_spec (terrain s i j + tol) h_min); [|auto].
        right; right; right; left. auto.
      + destruct (soil_cases s 2 i j) as [[S S']|[S S']]; rewrite S.
        * destruct (Z.ltb_spec (body_soil s 3 i j + tol) h_min); [|auto].
          right; right; right; right. exists 2, 2. unfold column_top. rewrite S. kred.
          split; [right; auto|]. repeat split; auto; lia || tauto.
        * destruct (Z.ltb_spec (body s 3 i j + tol) h_min); [|auto].
          right; right; right; right. exists 2, 2. unfold column_top. rewrite S. kred.
          split; [right; auto|]. repeat split; auto; lia || tauto.
    - eexists; split; [reflexivity|].
      destruct (Z.ltb_spec (base + tol) (body s 0 i j)).
      + destruct (Z.ltb_spec (terrain s i j + tol) h_min); [|auto].
        right; right; left. auto.
      + destruct (soil_cases s 0 i j) as [[S S']|[S S']]; rewrite S.
        * destruct (Z.ltb_spec (body_soil s 1 i j + tol) h_min); [|auto].
          right; right; right; right. exists 0, 1. unfold column_top. rewrite S. kred.
          split; [left; auto|]. repeat split; auto; lia || tauto.
        * destruct (Z.ltb_spec (body s 1 i j + tol) h_min); [|auto].
          right; right; right; right. exists 0, 1. unfold column_top. rewrite S. kred.
          split; [left; auto|]. repeat split; auto; lia || tauto.
    - (* two layers: kb below kt *)
      assert (Both : forall kb kt : Z, layer kb -> kt = 2 - kb ->
        body_at s kb i j -> body_at s kt i j -> (body s kb i j : Z) <= body s kt i j ->
        exists st,
          (let '(status, ct) :=
             if base + tol <? body s kt i j then
               if soil_present s kb i j then
                 if body_soil s (kb + 1) i j + tol <? body s kt i j
                 then (30 + (kt + 1), Some (body_soil s (kb + 1) i j))
                 else (30, None)
               else (30 + (kt + 2), Some (body s (kb + 1) i j))
             else (30, None) in
           let '(status, ct) :=
             if (body s kt i j <? base + tol) || (status =? 30) then
               if soil_present s kt i j
               then (status + (kb + 1), Some (body_soil s (kt + 1) i j))
               else (status + (kb + 2), Some (body s (kt + 1) i j))
             else (status, ct) in
           match ct with
           | Some c => Some (if c + tol <? h_min then status else 0)
           | None => None
           end) = Some st /\
          (st = 0 \/
           exists k d0, layer k /\ body_at s k i j /\
             ((d0 = 1 /\ k = 0 /\ ~ body_at s 2 i j) \/
              (d0 = 2 /\ k = 2 /\ ~ body_at s 0 i j) \/
              (d0 = 3 /\ body_at s (2 - k) i j)) /\
             column_top s k i j + tol < h_min /\
             (d0 = 3 -> (body s k i j : Z) < body s (2 - k) i j ->
              base + tol < (body s (2 - k) i j : Z)) /\
             (d0 <> 3 -> (body s k i j : Z) <= base + tol) /\
             ((soil_on s k i j /\ st = 10 * d0 + (3 - k)) \/
              (~ soil_on s k i j /\ st = 10 * d0 + (4 - k))))).
      { intros kb kt Hk -> Bb Bt Hle.
        assert (Hkt : layer (2 - kb)) by (unfold layer in *; lia).
        assert (Top : forall b : bool, b = false \/ b = true ->
          exists st : Z,
          (let '(status, ct) :=
               if soil_present s (2 - kb) i j
               then (30 + (kb + 1), Some (body_soil s (2 - kb + 1) i j))
               else (30 + (kb + 2), Some (body s (2 - kb + 1) i j)) in
           match ct with
           | Some c => Some (if c + tol <? h_min then status else 0)
           | None => None
           end) = Some st /\
          (st = 0 \/
           exists k d0, layer k /\ body_at s k i j /\
             ((d0 = 1 /\ k = 0 /\ ~ body_at s 2 i j) \/
              (d0 = 2 /\ k = 2 /\ ~ body_at s 0 i j) \/
              (d0 = 3 /\ body_at s (2 - k) i j)) /\
             column_top s k i j + tol < h_min /\
             (d0 = 3 -> (body s k i j : Z) < body s (2 - k) i j ->
              base + tol < (body s (2 - k) i j : Z)) /\
             (d0 <> 3 -> (body s k i j : Z) <= base + tol) /\
             ((soil_on s k i j /\ st = 10 * d0 + (3 - k)) \/
              (~ soil_on s k i j /\ st = 10 * d0 + (4 - k))))).
        { intros _ _. destruct (soil_cases s (2 - kb) i j) as [[S S']|[S S']]; rewrite S;
            (eexists; split; [reflexivity|]);
            match goal with |- (if ?c + _ <? _ then _ else _) = 0 \/ _ =>
              destruct (Z.ltb_spec (c + tol) h_min); [|auto] end;
            right; exists (2 - kb), 3; unfold column_top; rewrite S;
            replace (2 - (2 - kb)) with kb by lia;
            (split; [auto|]); (split; [auto|]);
            (split; [auto|]); (split; [auto|]);
            (split; [intros; cbn in *; lia|]); (split; [lia|]).
          - left. split; auto. lia.
          - right. split; auto. lia. }
        destruct (Z.ltb_spec (base + tol) (body s (2 - kb) i j)) as [L|L].
        - destruct (soil_cases s kb i j) as [[S S']|[S S']]; rewrite S.
          + destruct (Z.ltb_spec (body_soil s (kb + 1) i j + tol) (body s (2 - kb) i j)).
            * cbv beta iota zeta.
              destruct (Z.ltb_spec (body s (2 - kb) i j) (base + tol)); [lia|].
              destruct (Z.eqb_spec (30 + (2 - kb + 1)) 30); [unfold layer in *; lia|].
              cbn [orb]. eexists; split; [reflexivity|].
              destruct (Z.ltb_spec (body_soil s (kb + 1) i j + tol) h_min); [|auto].
              right. exists kb, 3. unfold column_top. rewrite S.
              (split; [auto|]); (split; [auto|]);
              (split; [auto|]); (split; [auto|]);
              (split; [intros; auto|]); (split; [lia|]).
              left. split; auto. lia.
            * cbv beta iota zeta. rewrite Z.eqb_refl, orb_true_r. apply (Top true); auto.
          + cbv beta iota zeta.
            destruct (Z.ltb_spec (body s (2 - kb) i j) (base + tol)); [lia|].
            destruct (Z.eqb_spec (30 + (2 - kb + 2)) 30); [unfold layer in *; lia|].
            cbn [orb]. eexists; split; [reflexivity|].
            destruct (Z.ltb_spec (body s (kb + 1) i j + tol) h_min); [|auto].
            right. exists kb, 3. unfold column_top. rewrite S.
            (split; [auto|]); (split; [auto|]);
            (split; [auto|]); (split; [auto|]);
            (split; [intros; auto|]); (split; [lia|]).
            right. split; auto. lia.
        - cbv beta iota zeta. rewrite Z.eqb_refl, orb_true_r. apply (Top true); auto. }
      destruct (Z.ltb_spec (body s 0 i j) (body s 2 i j)).
      + destruct (Both 0 2) as (st & Est & Hst); auto; [left; auto|lia|].
        exists st. split; [exact Est|]. destruct Hst as [->|Hst]; auto.
      + destruct (Both 2 0) as (st & Est & Hst); auto; [right; auto|].
        exists st. split; [exact Est|]. destruct Hst as [->|Hst]; auto.
  Qed.

  (** ** One avalanche from a soil column of the body *)

  Section Move.
    Variables (s : sim) (pend : list rec) (nn : nat) (e : rec) (ic jc : Z).
    Local Notation ind := (e_ind e).
    Local Notation i := (e_i e).
    Local Notation j := (e_j e).
    Hypothesis Hgood : good s (records s ++ pend).
    Hypothesis Hnn : nth_error (records s) nn = Some e.
    Hypothesis Hgc : on_grid s ic jc.
    Hypothesis Hne : (ic, jc) <> (i, j).

    Local Notation top := (body_soil s (ind + 1) i j : Z).

    Lemma move_nn : nth_error (records s ++ pend) nn = Some e.
    Proof. rewrite nth_error_app1; auto. apply nth_error_Some. congruence. Qed.

    Lemma move_list_set x : list_set (records s ++ pend) nn x = list_set (records s) nn x ++ pend.
    Proof. apply list_set_app_l. apply nth_error_Some. congruence. Qed.

    Lemma move_rec : rec_ok near cz s e.
    Proof.
      destruct Hgood as ((_ & _ & _ & H) & _). rewrite Forall_forall in H.
      apply H. eapply nth_error_In. apply move_nn.
    Qed.

    Lemma move_grid : on_grid s i j.
    Proof. destruct move_rec as (_ & H & _). unfold inside, on_grid in *. lia. Qed.

    Lemma move_enough : (e_h e : Z) <= soil_height s ind i j.
    Proof.
      destruct Hgood as ((_ & _ & H & Hf) & _).
      destruct (H i j move_grid) as (_ & _ & Hs).
      destruct move_rec as (Hk & _).
      rewrite (proj2 (Hs ind Hk)). eapply recorded_in; [|apply move_nn].
      eapply rec_ok_nonneg; eauto.
    Qed.

    (** What every branch amounts to: [h] is taken out of the record and, when
        [dest] is a layer, put there under a new record. *)
    Definition src_ok (s' : sim) (h : Z) : Prop :=
      same_dims s s' /\ beq s s' /\ body_area s' = body_area s /\
      relax_area s' = relax_area s /\ impact_area s' = impact_area s /\
      wlog s' = wlog s /\
      records s' = list_set (records s) nn (rec_with_h e ((e_h e : Z) - h)) /\
      (body_soil s' ind i j : Z) = taken_lo s ind i j h /\
      (body_soil s' (ind + 1) i j : Z) = taken_hi s ind i j h.

    Lemma move_to_body (s' : sim) (h : Z) (e' : rec) :
      0 <= h <= (e_h e : Z) -> aligned cz h -> src_ok s' h -> teq s s' ->
      rec_ok near cz s e' -> (e_h e' : Z) = h -> e_i e' = ic -> e_j e' = jc ->
      body_at s (e_ind e') ic jc ->
      (body_soil s' (e_ind e') ic jc : Z) = body s (e_ind e' + 1) ic jc ->
      (body_soil s' (e_ind e' + 1) ic jc : Z) = column_top s (e_ind e') ic jc + h ->
      (forall k i' j',
         ~ ((k = ind \/ k = ind + 1) /\ i' = i /\ j' = j) ->
         ~ ((k = e_ind e' \/ k = e_ind e' + 1) /\ i' = ic /\ j' = jc) ->
         (body_soil s' k i' j' : Z) = body_soil s k i' j') ->
      (body_at s (2 - e_ind e') ic jc ->
       (body s (e_ind e') ic jc : Z) < body s (2 - e_ind e') ic jc ->
       column_top s (e_ind e') ic jc + h <= body s (2 - e_ind e') ic jc) ->
      good s' (records s' ++ (pend ++ [e'])) /\ flows s s'.
    Proof.
      intros Hh Ah (S1 & S2 & S3 & S4 & S5 & S6 & S7 & S8 & S9) Ht Hok Eh <- <- Hb D1 D2 Ho Hc.
      destruct (good_body_body near cz frame s (records s ++ pend) s' nn e h e') as [G T]; auto.
      - lia.
      - apply move_nn.
      - pose proof (take_state_set s ind i j h) as (T1 & T2 & T3 & T4 & T5 & T6).
        split; [exact S1|]. split; [exact Ht|]. split; [exact S2|].
        split; [auto|]. split; [auto|].
        intros k' i' j' N.
        destruct (Z.eq_dec k' ind) as [Ek|Ek]; [|destruct (Z.eq_dec k' (ind + 1)) as [Ek1|Ek1]].
        + destruct (Z.eq_dec i' i) as [Ei|Ei]; [destruct (Z.eq_dec j' j) as [Ej|Ej]|].
          * subst k' i' j'. rewrite T4. auto.
          * rewrite T6 by tauto. apply Ho; tauto.
          * rewrite T6 by tauto. apply Ho; tauto.
        + destruct (Z.eq_dec i' i) as [Ei|Ei]; [destruct (Z.eq_dec j' j) as [Ej|Ej]|].
          * subst k' i' j'. rewrite T5. auto.
          * rewrite T6 by tauto. apply Ho; tauto.
          * rewrite T6 by tauto. apply Ho; tauto.
        + rewrite T6 by tauto. apply Ho; tauto.
      - split.
        + rewrite app_assoc, S7, <- move_list_set. auto.
        + apply flows_intro; auto.
    Qed.

    Lemma move_to_terrain (s' : sim) (h : Z) :
      0 <= h <= (e_h e : Z) -> aligned cz h -> src_ok s' h ->
      (terrain s' ic jc : Z) = (terrain s ic jc : Z) + h ->
      (forall i' j', ~ (i' = ic /\ j' = jc) ->
         (terrain s' i' j' : Z) = terrain s i' j') ->
      (forall k i' j',
         ~ ((k = ind \/ k = ind + 1) /\ i' = i /\ j' = j) ->
         (body_soil s' k i' j' : Z) = body_soil s k i' j') ->
      (forall k, layer k -> body_at s k ic jc ->
         (terrain s ic jc : Z) + h <= (body s k ic jc : Z)) ->
      good s' (records s' ++ pend) /\ flows s s'.
    Proof.
      intros Hh Ah (S1 & S2 & S3 & S4 & S5 & S6 & S7 & S8 & S9) Ht1 Ht2 Ho Hc.
      destruct (good_body_terrain near cz frame s (records s ++ pend) s' nn e h ic jc)
        as [G T]; auto.
      - lia.
      - apply move_nn.
      - pose proof (take_state_set s ind i j h) as (T1 & T2 & T3 & T4 & T5 & T6).
        split; [exact S1|]. split; [exact S2|]. split; [|split; auto].
        intros k' i' j'.
        destruct (Z.eq_dec k' ind) as [Ek|Ek]; [|destruct (Z.eq_dec k' (ind + 1)) as [Ek1|Ek1]].
        + destruct (Z.eq_dec i' i) as [Ei|Ei]; [destruct (Z.eq_dec j' j) as [Ej|Ej]|].
          * subst k' i' j'. rewrite T4. auto.
          * rewrite T6 by tauto. apply Ho; tauto.
          * rewrite T6 by tauto. apply Ho; tauto.
        + destruct (Z.eq_dec i' i) as [Ei|Ei]; [destruct (Z.eq_dec j' j) as [Ej|Ej]|].
          * subst k' i' j'. rewrite T5. auto.
          * rewrite T6 by tauto. apply Ho; tauto.
          * rewrite T6 by tauto. apply Ho; tauto.
        + rewrite T6 by tauto. apply Ho; tauto.
      - split.
        + rewrite S7, <- move_list_set. auto.
        + apply flows_intro; auto.
    Qed.

    (** Nothing moves. *)
    Lemma move_nothing (s' : sim) :
      src_ok s' 0 -> teq s s' ->
      (forall k i' j',
         ~ ((k = ind \/ k = ind + 1) /\ i' = i /\ j' = j) ->
         (body_soil s' k i' j' : Z) = body_soil s k i' j') ->
      good s' (records s' ++ pend) /\ flows s s'.
    Proof.
      intros Hs Ht Ho. apply (move_to_terrain s' 0); auto.
      - destruct move_rec as (_ & _ & H & _). lia.
      - apply aligned_0.
      - rewrite Ht. lia.
      - intros k Hk Hb. destruct Hgood as (_ & H & _).
        specialize (H ic jc k Hgc Hk Hb). lia.
    Qed.

    Lemma moved_facts (onto : Z) :
      aligned cz onto -> onto + tol < top - dh ->
      exists h, moved (A := ZNum upm) g dh tol s e ind i j onto = (top - h, h) /\
        0 <= h <= (e_h e : Z) /\ aligned cz h /\
        onto + h <= top - h - dh + cz.
    Proof.
      intros Ao Hlow. unfold moved. zn.
      destruct (good_aligned _ _ _ _ Hgood move_grid) as [_ Ac].
      destruct move_rec as (Hk & _ & Hpos & Ah & _).
      destruct (Ac (ind + 1)) as [_ At]; [unfold layer in Hk; lia|].
      destruct (level_drop g dh tol Htol Hcz Adh _ _ At Ao Hlow) as (L1 & L2 & L3).
      destruct (Z.ltb_spec (e_h e) (top - level top onto)).
      - exists (e_h e). repeat split; auto; lia.
      - exists (top - level top onto). split; [f_equal; lia|].
        split; [lia|]. split; [apply aligned_sub; auto|]. unfold cz. lia.
    Qed.

    (** The test made by the code to tell whether soil is left. *)
    Lemma partial_test (h : Z) :
      aligned cz h -> (body_soil s ind i j <? top - h - tol) = (h <? soil_height s ind i j).
    Proof.
      intros Ah.
      destruct (good_aligned _ _ _ _ Hgood move_grid) as [_ Ac].
      destruct move_rec as (Hk & _).
      destruct (Ac ind) as [_ A0]; [unfold layer in Hk; lia|].
      destruct (Ac (ind + 1)) as [_ A1]; [unfold layer in Hk; lia|].
      unfold soil_height.
      destruct (Z.ltb_spec h (top - body_soil s ind i j)).
      - apply Z.ltb_lt.
        assert (body_soil s ind i j + cz <= top - h); [|lia].
        apply aligned_lt; auto; try lia. apply aligned_sub; auto.
      - apply Z.ltb_ge. lia.
    Qed.

    (** When nothing is left, the whole record went. *)
    Lemma all_taken (h : Z) : h <= (e_h e : Z) -> (h <? soil_height s ind i j) = false ->
      h = (e_h e : Z) /\ h = soil_height s ind i j.
    Proof. intros Hh H. apply Z.ltb_ge in H. pose proof move_enough. lia. Qed.

    (** [h] goes from the column of the record to a column whose top, [before], was
        below the slope; the top becomes [after]. *)
    Definition drop (s' : sim) (before after : Z) : Prop :=
      exists h, 0 <= h <= (e_h e : Z) /\ aligned cz h /\ before + tol < top - dh /\
        soil_height s' ind i j = soil_height s ind i j - h /\
        after = before + h /\ after <= top - dh.

    Lemma drop_intro (s' : sim) (h h0 before after : Z) :
      src_ok s' h -> 0 <= h <= (e_h e : Z) -> h <= h0 -> aligned cz h ->
      before + tol < top - dh -> before + h0 <= top - h0 - dh + cz ->
      after = before + h -> drop s' before after.
    Proof.
      intros (_ & _ & _ & _ & _ & _ & _ & S1 & S2) H1 H2 Ah H3 H4 ->. exists h.
      split; [auto|]. split; [auto|]. split; [auto|]. split; [|split; [auto|]].
      - unfold soil_height at 1. rewrite S1, S2. unfold taken_lo, taken_hi. zn.
        destruct (h <? soil_height s ind i j) eqn:E.
        + unfold soil_height. zn. lia.
        + destruct (all_taken h ltac:(lia) E). lia.
      - destruct (Z.eq_dec h 0) as [->|N]; [lia|].
        pose proof (aligned_lt cz 0 h ltac:(lia) (aligned_0 cz) Ah ltac:(lia)). lia.
    Qed.

    Ltac lookup :=
      upds; eqbs; auto; try lia; try (exfalso; apply Hne; congruence); try tauto.

    Lemma body_onto_terrain_good d0 :
      (d0 = 4 /\ ~ body_at s 0 ic jc /\ ~ body_at s 2 ic jc \/
       d0 = 1 /\ body_at s 0 ic jc /\ ~ body_at s 2 ic jc \/
       d0 = 2 /\ ~ body_at s 0 ic jc /\ body_at s 2 ic jc) ->
      (terrain s ic jc : Z) + tol < top - dh ->
      let s' := body_onto_terrain (A := ZNum upm) g dh tol s d0 nn e ind i j ic jc in
      (good s' (records s' ++ pend) /\ flows s s') /\
      drop s' (terrain s ic jc) (terrain s' ic jc).
    Proof.
      intros Hd0 Hlow s'.
      destruct (good_aligned _ _ _ _ Hgood Hgc) as [Atc Ac].
      destruct (moved_facts _ Atc Hlow) as (h0 & Eh0 & Hh0 & Ah0 & Hroom).
      set (tc := terrain s ic jc : Z) in *.
      pose (lim := fun k => if (body s k ic jc <? tc + h0 - tol)
                            then body s k ic jc - tc else h0).
      pose (h := if d0 =? 1 then lim 0 else if d0 =? 2 then lim 2 else h0).
      assert (Hlim : forall k, layer k -> body_at s k ic jc ->
        0 <= lim k <= h0 /\ aligned cz (lim k) /\ tc + lim k <= (body s k ic jc : Z)).
      { intros k Hk Hb. unfold lim.
        destruct (Ac k) as [Ab _]; [unfold layer in Hk; lia|].
        pose proof (proj1 (proj2 Hgood) ic jc k Hgc Hk Hb) as TB. fold tc in TB.
        destruct (Z.ltb_spec (body s k ic jc) (tc + h0 - tol)).
        - split; [lia|]. split; [apply aligned_sub; auto|]. lia.
        - split; [lia|]. split; [auto|].
          apply aligned_le with (cz := cz) (t := tol); auto; try lia.
          apply aligned_add; auto. }
      assert (Hh : (0 <= h <= (e_h e : Z) /\ h <= h0) /\ aligned cz h /\
        (forall k, layer k -> body_at s k ic jc -> tc + h <= (body s k ic jc : Z))).
      { unfold h. destruct Hd0 as [(-> & B0 & B2)|[(-> & B0 & B2)|(-> & B0 & B2)]]; cbn [Z.eqb Pos.eqb].
        - split; [lia|]. split; [auto|]. intros k [->| ->]; tauto.
        - destruct (Hlim 0) as (L1 & L2 & L3); auto; [left; auto|].
          split; [lia|]. split; [auto|]. intros k [->| ->]; tauto.
        - destruct (Hlim 2) as (L1 & L2 & L3); auto; [right; auto|].
          split; [lia|]. split; [auto|]. intros k [->| ->]; tauto. }
      destruct Hh as ((Hh & Hh') & Ah & Hc).
      assert (Es' : s' =
        if h <? soil_height s ind i j then
          set_record_h (A := ZNum upm) (set_bs (A := ZNum upm) (set_t (A := ZNum upm) s ic jc (tc + h)) (ind + 1) i j (top - h))
            nn e ((e_h e : Z) - h)
        else
          set_record_h (A := ZNum upm) (set_bs (A := ZNum upm) (set_bs (A := ZNum upm) (set_t (A := ZNum upm) s ic jc (tc + h)) ind i j 0)
                  (ind + 1) i j 0) nn e 0).
      { rewrite <- partial_test by auto.
        assert (E0 : (if e_h e <? top - level top tc then e_h e else top - level top tc) = h0).
        { unfold moved in Eh0. zn. fold (level top tc) in Eh0.
          destruct (e_h e <? top - level top tc); congruence. }
        assert (E1 : (if d0 =? 1 then (if body s 0 ic jc <? tc + h0 - tol
              then (body s 0 ic jc - tc, body s 0 ic jc) else (h0, tc + h0))
           else if d0 =? 2 then (if body s 2 ic jc <? tc + h0 - tol
              then (body s 2 ic jc - tc, body s 2 ic jc) else (h0, tc + h0))
           else (h0, tc + h0)) = (h, tc + h)).
        { unfold h, lim. destruct (d0 =? 1); [|destruct (d0 =? 2)]; auto.
          - destruct (body s 0 ic jc <? tc + h0 - tol); auto. f_equal. zn. lia.
          - destruct (body s 2 ic jc <? tc + h0 - tol); auto. f_equal. zn. lia. }
        unfold s', body_onto_terrain. zn. fold tc. fold (level top tc).
        rewrite E0. zn. rewrite E1. reflexivity. }
      assert (Hfin : src_ok s' h /\
        (terrain s' ic jc : Z) = tc + h /\
        (forall i' j', ~ (i' = ic /\ j' = jc) ->
         (terrain s' i' j' : Z) = terrain s i' j') /\
        (forall k i' j',
         ~ ((k = ind \/ k = ind + 1) /\ i' = i /\ j' = j) ->
         (body_soil s' k i' j' : Z) = body_soil s k i' j')).
      { rewrite Es'. unfold src_ok, taken_lo, taken_hi.
        destruct (h <? soil_height s ind i j) eqn:E.
        - split; [repeat split; auto|].
          + lookup.
          + lookup.
          + repeat split; intros; lookup.
        - destruct (all_taken h) as [E1 E2]; auto; [lia|].
          split; [repeat split; auto|].
          + replace ((e_h e : Z) - h) with 0 by lia. reflexivity.
          + lookup.
          + lookup.
          + repeat split; intros; lookup. }
      destruct Hfin as (F1 & F2 & F3 & F4). split.
      - apply (move_to_terrain s' h); auto.
      - apply (drop_intro s' h h0); auto.
    Qed.

    Lemma take_soil_eq (s1 : sim) (h : Z) :
      aligned cz h -> (body_soil s1 ind i j : Z) = body_soil s ind i j ->
      take_soil (A := ZNum upm) tol s1 nn e ind i j (top - h) h =
      if h <? soil_height s ind i j
      then set_record_h (A := ZNum upm) (set_bs (A := ZNum upm) s1 (ind + 1) i j (top - h))
             nn e ((e_h e : Z) - h)
      else set_record_h (A := ZNum upm)
             (set_bs (A := ZNum upm) (set_bs (A := ZNum upm) s1 ind i j 0) (ind + 1) i j 0)
             nn e 0.
    Proof.
      intros Ah E. unfold take_soil. zn. rewrite E, partial_test by auto. reflexivity.
    Qed.

    (** Top of the target layer. *)
    Lemma dest_facts k : layer k -> body_at s k ic jc ->
      aligned cz (column_top s k ic jc) /\
      aligned cz (body s (2 - k) ic jc) /\
      (soil_on s k ic jc -> column_top s k ic jc = body_soil s (k + 1) ic jc /\
         (body_soil s k ic jc : Z) = body s (k + 1) ic jc) /\
      (~ soil_on s k ic jc -> column_top s k ic jc = body s (k + 1) ic jc) /\
      (body_at s (2 - k) ic jc -> (body s k ic jc : Z) < body s (2 - k) ic jc ->
       column_top s k ic jc <= body s (2 - k) ic jc).
    Proof.
      intros Hk Hb.
      destruct (good_aligned _ _ _ _ Hgood Hgc) as [_ Ac].
      destruct (Ac (k + 1)) as [Ab1 As1]; [unfold layer in Hk; lia|].
      destruct (Ac (2 - k)) as [Abo _]; [unfold layer in Hk; lia|].
      unfold column_top. destruct (soil_cases s k ic jc) as [[E S]|[E S]]; rewrite E.
      - split; [auto|]. split; [auto|]. split; [|split; [tauto|]].
        + intros _. split; auto.
          apply (good_soil_cell _ _ _ _ Hgood Hgc k Hk); auto.
        + intros Ho Hl. destruct Hgood as (_ & _ & SB & _). apply (SB ic jc k); auto.
      - split; [auto|]. split; [auto|]. split; [tauto|]. split; [auto|].
        intros Ho Hl.
        pose proof (good_disjoint _ _ k ic jc Hgood Hgc Hk Hb Ho Hl). lia.
    Qed.

    (** Enough room below the other layer when the whole column moves. *)
    Lemma dest_room k (h : Z) : layer k -> body_at s k ic jc ->
      0 <= h <= (e_h e : Z) -> (h <? soil_height s ind i j) = false ->
      column_top s k ic jc + h <= top - h - dh + cz ->
      (body_at s (2 - k) ic jc -> (body s k ic jc : Z) < body s (2 - k) ic jc ->
       (body s (ind + 1) i j : Z) + tol < body s (2 - k) ic jc) ->
      body_at s (2 - k) ic jc -> (body s k ic jc : Z) < body s (2 - k) ic jc ->
      column_top s k ic jc + h <= body s (2 - k) ic jc.
    Proof.
      intros Hk Hb Hh Ht Hr Hbase Ho Hl.
      destruct (dest_facts k Hk Hb) as (_ & Abo & _ & _ & Hbelow).
      specialize (Hbelow Ho Hl). specialize (Hbase Ho Hl).
      destruct (all_taken h) as [E1 E2]; auto; [lia|].
      destruct (Z.eq_dec h 0) as [->|Hnz]; [lia|].
      destruct (good_aligned _ _ _ _ Hgood move_grid) as [_ Aci].
      destruct move_rec as (Hki & _).
      destruct (Aci (ind + 1)) as [Ai _]; [unfold layer in Hki; lia|].
      assert (Hs : soil_on s ind i j) by (unfold soil_on, soil_height in *; lia).
      destruct (good_soil_cell _ _ _ _ Hgood move_grid ind Hki) as [HH _].
      destruct (HH Hs) as (_ & Hbs & _). unfold soil_height in E2. rewrite Hbs in E2.
      assert (body s (ind + 1) i j + cz <= body s (2 - k) ic jc)
        by (apply aligned_lt; auto; lia).
      lia.
    Qed.

    Definition new_rec (k h : Z) : rec :=
      @mkRec (ZNum upm) k ic jc (frame ic jc (body s (k + 1) ic jc)) h.

    Lemma body_onto_single_good (soil : bool) k :
      layer k -> body_at s k ic jc -> ~ body_at s (2 - k) ic jc ->
      (soil = true <-> soil_on s k ic jc) ->
      column_top s k ic jc + tol < top - dh ->
      let p := body_onto_single (A := ZNum upm) frame g dh tol s soil k nn e ind i j ic jc in
      (good (fst p) (records (fst p) ++ (pend ++ [snd p])) /\ flows s (fst p)) /\
      drop (fst p) (column_top s k ic jc) (body_soil (fst p) (k + 1) ic jc).
    Proof.
      intros Hk Hb Ho Hsoil Hlow p.
      destruct (dest_facts k Hk Hb) as (Act & _ & Hon & Hoff & _).
      destruct (moved_facts _ Act Hlow) as (h & Em & Hh & Ah & Hroom).
      assert (Fin : exists s', p = (s', new_rec k h) /\ src_ok s' h /\ teq s s' /\
        (body_soil s' k ic jc : Z) = body s (k + 1) ic jc /\
        (body_soil s' (k + 1) ic jc : Z) = column_top s k ic jc + h /\
        (forall k' i' j',
         ~ ((k' = ind \/ k' = ind + 1) /\ i' = i /\ j' = j) ->
         ~ ((k' = k \/ k' = k + 1) /\ i' = ic /\ j' = jc) ->
         (body_soil s' k' i' j' : Z) = body_soil s k' i' j')).
      { unfold p, body_onto_single. destruct soil.
        - destruct Hon as [Hon1 Hon2]; [apply Hsoil; auto|].
          rewrite <- Hon1, Em. rewrite take_soil_eq by auto.
          eexists. split; [reflexivity|].
          unfold src_ok, taken_lo, taken_hi.
          destruct (h <? soil_height s ind i j) eqn:E.
          + split; [repeat split; auto; lookup|]. rewrite Hon1 in *.
            repeat split; intros; lookup.
          + destruct (all_taken h) as [E1 E2]; auto; [lia|].
            split; [repeat split; auto|].
            * replace ((e_h e : Z) - h) with 0 by lia. reflexivity.
            * lookup.
            * lookup.
            * rewrite Hon1 in *. repeat split; intros; lookup.
        - rewrite <- Hoff by (rewrite <- Hsoil; discriminate).
          rewrite Em. rewrite take_soil_eq; [|auto|lookup].
          eexists. split; [unfold new_rec; rewrite <- Hoff by (rewrite <- Hsoil; discriminate); reflexivity|].
          unfold src_ok, taken_lo, taken_hi.
          destruct (h <? soil_height s ind i j) eqn:E.
          + split; [repeat split; auto; lookup|].
            repeat split; intros; lookup.
          + destruct (all_taken h) as [E1 E2]; auto; [lia|].
            split; [repeat split; auto|].
            * replace ((e_h e : Z) - h) with 0 by lia. reflexivity.
            * lookup.
            * lookup.
            * repeat split; intros; lookup. }
      destruct Fin as (s' & -> & F1 & F2 & F3 & F4 & F5). cbn [fst snd].
      split; [|apply (drop_intro s' h h); auto; lia].
      apply (move_to_body s' h (new_rec k h)); auto; try tauto.
      eapply new_rec_ok; eauto. lia.
    Qed.

    Lemma is_bottom_spec k : layer k -> body_at s k ic jc -> body_at s (2 - k) ic jc ->
      (is_bottom (A := ZNum upm) s k ic jc = true <->
       (body s k ic jc : Z) < body s (2 - k) ic jc).
    Proof.
      intros Hk Hb Ho. unfold is_bottom. zn.
      assert (Hne' : (body s 0 ic jc : Z) <> body s 2 ic jc).
      { destruct (good_body_cell _ _ _ _ Hgood Hgc) as [A1 A2].
        assert (B0 : body_at s 0 ic jc) by (destruct Hk as [->| ->]; auto).
        assert (B2 : body_at s 2 ic jc) by (destruct Hk as [->| ->]; auto).
        destruct (A1 0 ltac:(left; auto) B0) as [_ L0].
        destruct (A1 2 ltac:(right; auto) B2) as [_ L2]. kred.
        specialize (A2 B0 B2). lia. }
      destruct Hk as [->| ->]; kred; cbn [Z.eqb Pos.eqb].
      - rewrite negb_true_iff, Z.ltb_ge. lia.
      - rewrite Z.ltb_lt. reflexivity.
    Qed.

    Lemma body_onto_two_soil_good k :
      layer k -> body_at s k ic jc -> body_at s (2 - k) ic jc -> soil_on s k ic jc ->
      column_top s k ic jc + tol < top - dh ->
      ((body s k ic jc : Z) < body s (2 - k) ic jc ->
       (body s (ind + 1) i j : Z) + tol < body s (2 - k) ic jc) ->
      let p := body_onto_two_soil (A := ZNum upm) frame g dh tol s k (2 - k) nn e ind i j ic jc in
      (good (fst p) (records (fst p) ++ (pend ++ snd p)) /\ flows s (fst p)) /\
      drop (fst p) (column_top s k ic jc) (body_soil (fst p) (k + 1) ic jc).
    Proof.
      intros Hk Hb Ho Hs Hlow Hbase p.
      destruct (dest_facts k Hk Hb) as (Act & Abo & Hon & _ & Hbelow).
      destruct (Hon Hs) as [Hon1 Hon2].
      destruct (moved_facts _ Act Hlow) as (h0 & Em & Hh0 & Ah0 & Hroom).
      pose proof (is_bottom_spec k Hk Hb Ho) as Hbot.
      set (ctop := column_top s k ic jc) in *.
      set (bo := body s (2 - k) ic jc : Z) in *.
      pose (clip := is_bottom (A := ZNum upm) s k ic jc
                    && (h0 <? soil_height s ind i j) && (bo <? ctop + h0 - tol)).
      pose (h := if clip then bo - ctop else h0).
      assert (Hh : (0 <= h <= (e_h e : Z) /\ h <= h0) /\ aligned cz h /\
                   ((body s k ic jc : Z) < bo -> ctop + h <= bo)).
      { unfold h, clip. destruct (is_bottom (A := ZNum upm) s k ic jc) eqn:Eb; cbn [andb].
        - destruct (h0 <? soil_height s ind i j) eqn:E1; cbn [andb].
          + destruct (Z.ltb_spec bo (ctop + h0 - tol)).
            * specialize (Hbelow Ho (proj1 Hbot eq_refl)).
              split; [lia|]. split; [apply aligned_sub; auto|]. lia.
            * split; [lia|]. split; [auto|]. intros _.
              apply aligned_le with (cz := cz) (t := tol); auto; try lia.
              apply aligned_add; auto.
          + split; [lia|]. split; [auto|]. intros Hl.
            apply dest_room; auto.
        - split; [lia|]. split; [auto|]. intros Hl.
          apply Hbot in Hl. discriminate. }
      destruct Hh as ((Hh & Hh') & Ah & Hc).
      assert (Fin : exists s', p = (s', if tol <? h then [new_rec k h] else []) /\
        src_ok s' h /\ teq s s' /\
        (body_soil s' k ic jc : Z) = body s (k + 1) ic jc /\
        (body_soil s' (k + 1) ic jc : Z) = ctop + h /\
        (forall k' i' j',
         ~ ((k' = ind \/ k' = ind + 1) /\ i' = i /\ j' = j) ->
         ~ ((k' = k \/ k' = k + 1) /\ i' = ic /\ j' = jc) ->
         (body_soil s' k' i' j' : Z) = body_soil s k' i' j')).
      { unfold p, body_onto_two_soil. rewrite <- Hon1. fold ctop. rewrite Em. zn. fold bo.
        rewrite partial_test by auto. fold clip.
        unfold src_ok, taken_lo, taken_hi.
        destruct clip eqn:Ec.
        - unfold clip in Ec. rewrite !andb_true_iff in Ec. destruct Ec as ((E1 & E2) & E3).
          apply Z.ltb_lt in E2, E3.
          eexists. split; [reflexivity|].
          assert (E : (h <? soil_height s ind i j) = true)
            by (unfold h; apply Z.ltb_lt; lia).
          rewrite E.
          split; [repeat split; auto; unfold h; lookup|].
          repeat split; intros; unfold h; lookup.
        - rewrite take_soil_eq; [|auto|lookup].
          unfold h.
          destruct (h0 <? soil_height s ind i j) eqn:E.
          + eexists. split; [reflexivity|].
            split; [repeat split; auto; lookup|]. repeat split; intros; lookup.
          + destruct (all_taken h0) as [E1 E2]; auto; [lia|].
            eexists. split; [reflexivity|].
            split; [repeat split; auto|].
            * replace ((e_h e : Z) - h0) with 0 by lia. reflexivity.
            * lookup.
            * lookup.
            * repeat split; intros; lookup. }
      destruct Fin as (s' & -> & F1 & F2 & F3 & F4 & F5). cbn [fst snd].
      split; [|apply (drop_intro s' h h0); auto].
      destruct (Z.ltb_spec tol h).
      - apply (move_to_body s' h (new_rec k h)); auto.
        eapply new_rec_ok; eauto. lia.
      - rewrite app_nil_r.
        assert (E0 : h = 0).
        { assert (h <= 0); [|lia].
          apply aligned_le with (cz := cz) (t := tol); auto; try lia. apply aligned_0. }
        rewrite E0 in *. apply move_nothing; auto.
        intros k' i' j' N.
        destruct (Z.eq_dec i' ic) as [Ei|Ei]; [|apply F5; tauto].
        destruct (Z.eq_dec j' jc) as [Ej|Ej]; [|apply F5; tauto].
        destruct (Z.eq_dec k' k) as [->|Ek]; [subst; rewrite F3; auto|].
        destruct (Z.eq_dec k' (k + 1)) as [->|Ek1]; [subst; rewrite F4; lia|].
        apply F5; tauto.
    Qed.

    Lemma body_onto_two_body_good k :
      layer k -> body_at s k ic jc -> body_at s (2 - k) ic jc -> ~ soil_on s k ic jc ->
      column_top s k ic jc + tol < top - dh ->
      ((body s k ic jc : Z) < body s (2 - k) ic jc ->
       (body s (ind + 1) i j : Z) + tol < body s (2 - k) ic jc) ->
      let p := body_onto_two_body (A := ZNum upm) frame g dh tol s k (2 - k) nn e ind i j ic jc in
      (good (fst p) (records (fst p) ++ (pend ++ [snd p])) /\ flows s (fst p)) /\
      drop (fst p) (column_top s k ic jc) (body_soil (fst p) (k + 1) ic jc).
    Proof.
      intros Hk Hb Ho Hs Hlow Hbase p.
      destruct (dest_facts k Hk Hb) as (Act & Abo & _ & Hoff & Hbelow).
      specialize (Hoff Hs).
      destruct (moved_facts _ Act Hlow) as (h0 & Em & Hh0 & Ah0 & Hroom).
      pose proof (is_bottom_spec k Hk Hb Ho) as Hbot.
      set (ctop := column_top s k ic jc) in *.
      set (bo := body s (2 - k) ic jc : Z) in *.
      pose (clip := is_bottom (A := ZNum upm) s k ic jc
                    && (h0 <? soil_height s ind i j) && (bo <? ctop + h0 - tol)).
      pose (h := if clip then bo - ctop else h0).
      assert (Hh : (0 <= h <= (e_h e : Z) /\ h <= h0) /\ aligned cz h /\
                   ((body s k ic jc : Z) < bo -> ctop + h <= bo)).
      { unfold h, clip. destruct (is_bottom (A := ZNum upm) s k ic jc) eqn:Eb; cbn [andb].
        - destruct (h0 <? soil_height s ind i j) eqn:E1; cbn [andb].
          + destruct (Z.ltb_spec bo (ctop + h0 - tol)).
            * specialize (Hbelow Ho (proj1 Hbot eq_refl)).
              split; [lia|]. split; [apply aligned_sub; auto|]. lia.
            * split; [lia|]. split; [auto|]. intros _.
              apply aligned_le with (cz := cz) (t := tol); auto; try lia.
              apply aligned_add; auto.
          + split; [lia|]. split; [auto|]. intros Hl.
            apply dest_room; auto.
        - split; [lia|]. split; [auto|]. intros Hl.
          apply Hbot in Hl. discriminate. }
      destruct Hh as ((Hh & Hh') & Ah & Hc).
      assert (Plain : forall v : Z, v = ctop + h0 ->
        let s' := take_soil (A := ZNum upm) tol (set_bs (A := ZNum upm) (set_bs (A := ZNum upm) s k ic jc ctop) (k + 1) ic jc v)
                    nn e ind i j (top - h0) h0 in
        src_ok s' h0 /\ teq s s' /\
        (body_soil s' k ic jc : Z) = body s (k + 1) ic jc /\
        (body_soil s' (k + 1) ic jc : Z) = ctop + h0 /\
        (forall k' i' j',
         ~ ((k' = ind \/ k' = ind + 1) /\ i' = i /\ j' = j) ->
         ~ ((k' = k \/ k' = k + 1) /\ i' = ic /\ j' = jc) ->
         (body_soil s' k' i' j' : Z) = body_soil s k' i' j')).
      { intros v -> s'. unfold s'. rewrite take_soil_eq; [|auto|lookup].
        unfold src_ok, taken_lo, taken_hi.
        destruct (h0 <? soil_height s ind i j) eqn:E.
        + split; [repeat split; auto; lookup|]. repeat split; intros; lookup.
        + destruct (all_taken h0) as [E1 E2]; auto; [lia|].
          split; [repeat split; auto|].
          * replace ((e_h e : Z) - h0) with 0 by lia. reflexivity.
          * lookup.
          * lookup.
          * repeat split; intros; lookup. }
      assert (Fin : exists s', p = (s', new_rec k h) /\
        src_ok s' h /\ teq s s' /\
        (body_soil s' k ic jc : Z) = body s (k + 1) ic jc /\
        (body_soil s' (k + 1) ic jc : Z) = ctop + h /\
        (forall k' i' j',
         ~ ((k' = ind \/ k' = ind + 1) /\ i' = i /\ j' = j) ->
         ~ ((k' = k \/ k' = k + 1) /\ i' = ic /\ j' = jc) ->
         (body_soil s' k' i' j' : Z) = body_soil s k' i' j')).
      { unfold p, body_onto_two_body. rewrite <- Hoff. fold ctop. rewrite Em. zn. fold bo.
        rewrite partial_test by auto.
        change (is_bottom (A := ZNum upm) (set_bs (A := ZNum upm) s k ic jc ctop) k ic jc)
          with (is_bottom (A := ZNum upm) s k ic jc).
        cbn [body set_bs]. fold bo. unfold new_rec. rewrite <- Hoff. rewrite <- Hoff in Plain.
        unfold h, clip. destruct (is_bottom (A := ZNum upm) s k ic jc) eqn:Eb; cbn [andb].
        - destruct (h0 <? soil_height s ind i j) eqn:E1; cbn [andb].
          + destruct (Z.ltb_spec bo (ctop + h0 - tol)).
            * eexists. split; [reflexivity|].
              unfold src_ok, taken_lo, taken_hi.
              apply Z.ltb_lt in E1.
              rewrite (proj2 (Z.ltb_lt _ _)) by lia.
              split; [repeat split; auto; lookup|].
              repeat split; intros; lookup.
            * eexists. split; [reflexivity|]. apply Plain; auto.
          + destruct (all_taken h0) as [E2 E3]; auto; [lia|].
            eexists. split; [reflexivity|]. apply Plain.
            destruct (k =? 0); auto.
            unfold soil_height in E3. lookup.
        - eexists. split; [reflexivity|]. apply Plain; auto. }
      destruct Fin as (s' & -> & F1 & F2 & F3 & F4 & F5). cbn [fst snd].
      split; [|apply (drop_intro s' h h0); auto].
      apply (move_to_body s' h (new_rec k h)); auto.
      eapply new_rec_ok; eauto. lia.
    Qed.

    Lemma wrap_terrain (X Y D : Prop) : X /\ D -> X /\ ((0 = 0 /\ D) \/ Y).
    Proof. tauto. Qed.

    Lemma wrap_layer (X Y : Prop) (D : Z -> Prop) k c :
      layer k -> body_at s k ic jc ->
      (soil_on s k ic jc /\ c = 3 - k \/ ~ soil_on s k ic jc /\ c = 4 - k) ->
      X /\ D k ->
      X /\ (Y \/ exists k, layer k /\ body_at s k ic jc /\
        (soil_on s k ic jc /\ c = 3 - k \/ ~ soil_on s k ic jc /\ c = 4 - k) /\ D k).
    Proof. intros H1 H2 H3 [H4 H5]. split; [auto|]. right. exists k. auto. Qed.

    (** RelaxUnstableBodyCell. *)
    Lemma relax_unstable_body_cell_good st :
      body_status s i j ind ic jc (top - dh) st ->
      let p := relax_unstable_body_cell (A := ZNum upm) frame g dh tol s st pend nn e i j ind ic jc in
      (good (fst p) (records (fst p) ++ snd p) /\ flows s (fst p)) /\
      ((st mod 10 = 0 /\ drop (fst p) (terrain s ic jc) (terrain (fst p) ic jc)) \/
       (exists k, layer k /\ body_at s k ic jc /\
          (soil_on s k ic jc /\ st mod 10 = 3 - k \/ ~ soil_on s k ic jc /\ st mod 10 = 4 - k) /\
          drop (fst p) (column_top s k ic jc) (body_soil (fst p) (k + 1) ic jc))).
    Proof.
      intros Hst p. unfold p, relax_unstable_body_cell.
      destruct Hst as [(-> & B0 & B2 & Hl)|[(-> & B0 & B2 & Hb & Hl)|
        [(-> & B0 & B2 & Hb & Hl)|
         (k & d0 & Hk & Hb & Hd0 & Hct & Hbase & _ & Hs)]]].
      - change (40 / 10) with 4. change (40 mod 10) with 0. cbn [Z.eqb fst snd].
        apply wrap_terrain. apply body_onto_terrain_good; auto.
      - change (10 / 10) with 1. change (10 mod 10) with 0. cbn [Z.eqb fst snd].
        apply wrap_terrain. apply body_onto_terrain_good; auto.
      - change (20 / 10) with 2. change (20 mod 10) with 0. cbn [Z.eqb fst snd].
        apply wrap_terrain. apply body_onto_terrain_good; auto.
      - destruct Hs as [(Hs & ->)|(Hs & ->)].
        + destruct (digits d0 (3 - k)) as [-> ->]; [unfold layer in Hk; lia|].
          destruct Hd0 as [(-> & -> & Ho)|[(-> & -> & Ho)|(-> & Ho)]].
          * change (3 - 0) with 3. cbn [Z.eqb Pos.eqb fst snd]. apply (wrap_layer _ _ (fun k => drop _ (column_top s k ic jc) (body_soil (A := ZNum upm) _ (k + 1) ic jc)) 0); [unfold layer; auto|auto|auto|].
            apply (body_onto_single_good true 0); auto. tauto.
          * change (3 - 2) with 1. cbn [Z.eqb Pos.eqb fst snd]. apply (wrap_layer _ _ (fun k => drop _ (column_top s k ic jc) (body_soil (A := ZNum upm) _ (k + 1) ic jc)) 2); [unfold layer; auto|auto|auto|].
            apply (body_onto_single_good true 2); auto. tauto.
          * destruct Hk as [->| ->].
            -- change (3 - 0) with 3. cbn [Z.eqb Pos.eqb fst snd]. apply (wrap_layer _ _ (fun k => drop _ (column_top s k ic jc) (body_soil (A := ZNum upm) _ (k + 1) ic jc)) 0); [unfold layer; auto|auto|auto|].
               apply (body_onto_two_soil_good 0); auto. left; auto.
            -- change (3 - 2) with 1. cbn [Z.eqb Pos.eqb fst snd]. apply (wrap_layer _ _ (fun k => drop _ (column_top s k ic jc) (body_soil (A := ZNum upm) _ (k + 1) ic jc)) 2); [unfold layer; auto|auto|auto|].
               apply (body_onto_two_soil_good 2); auto. right; auto.
        + destruct (digits d0 (4 - k)) as [-> ->]; [unfold layer in Hk; lia|].
          destruct Hd0 as [(-> & -> & Ho)|[(-> & -> & Ho)|(-> & Ho)]].
          * change (4 - 0) with 4. cbn [Z.eqb Pos.eqb fst snd]. apply (wrap_layer _ _ (fun k => drop _ (column_top s k ic jc) (body_soil (A := ZNum upm) _ (k + 1) ic jc)) 0); [unfold layer; auto|auto|auto|].
            apply (body_onto_single_good false 0); auto.
            split; [discriminate|tauto].
          * change (4 - 2) with 2. cbn [Z.eqb Pos.eqb fst snd]. apply (wrap_layer _ _ (fun k => drop _ (column_top s k ic jc) (body_soil (A := ZNum upm) _ (k + 1) ic jc)) 2); [unfold layer; auto|auto|auto|].
            apply (body_onto_single_good false 2); auto.
            split; [discriminate|tauto].
          * destruct Hk as [->| ->].
            -- change (4 - 0) with 4. cbn [Z.eqb Pos.eqb fst snd]. apply (wrap_layer _ _ (fun k => drop _ (column_top s k ic jc) (body_soil (A := ZNum upm) _ (k + 1) ic jc)) 0); [unfold layer; auto|auto|auto|].
               apply (body_onto_two_body_good 0); auto. left; auto.
            -- change (4 - 2) with 2. cbn [Z.eqb Pos.eqb fst snd]. apply (wrap_layer _ _ (fun k => drop _ (column_top s k ic jc) (body_soil (A := ZNum upm) _ (k + 1) ic jc)) 2); [unfold layer; auto|auto|auto|].
               apply (body_onto_two_body_good 2); auto. right; auto.
    Qed.
  End Move.

  (** The place of each record. *)
  Definition keys (l : list rec) : list (Z * Z * Z) :=
    map (fun e => (e_ind e, e_i e, e_j e)) l.

  Lemma keys_set_h (l : list rec) nn (e : rec) (h : Z) :
    nth_error l nn = Some e -> keys (list_set l nn (rec_with_h e h)) = keys l.
  Proof.
    revert nn. induction l as [|x l IH]; intros [|nn] H; cbn in *; try discriminate; auto.
    - injection H as <-. auto.
    - f_equal. apply IH. auto.
  Qed.

  Lemma relax_unstable_body_cell_keys (s : sim) st pend nn (e : rec) i j ind ic jc :
    nth_error (records s) nn = Some e ->
    keys (records (fst (relax_unstable_body_cell (A := ZNum upm) frame g dh tol s st pend nn e
                          i j ind ic jc))) = keys (records s).
  Proof.
    intros H.
    unfold relax_unstable_body_cell, body_onto_terrain, body_onto_single,
      body_onto_two_soil, body_onto_two_body, take_soil, moved.
    repeat match goal with
    | |- context [if ?b then _ else _] => destruct b
    end; cbn [fst snd records set_record_h set_records set_bs set_t];
    auto using keys_set_h.
  Qed.

  Lemma keys_nth (l l' : list rec) nn (e : rec) :
    keys l' = keys l -> nth_error l nn = Some e ->
    exists e', nth_error l' nn = Some e' /\
      e_ind e' = e_ind e /\ e_i e' = e_i e /\ e_j e' = e_j e.
  Proof.
    intros K H.
    assert (E : nth_error (keys l') nn = Some (e_ind e, e_i e, e_j e))
      by (rewrite K; unfold keys; rewrite nth_error_map, H; auto).
    unfold keys in E. rewrite nth_error_map in E.
    destruct (nth_error l' nn) as [e'|]; cbn in E; [|discriminate].
    injection E as ? ? ?. eauto.
  Qed.

  Definition body_loop (s0 : sim) (st : sim * list rec) : Prop :=
    let '(s, pend) := st in
    good s (records s ++ pend) /\ flows s0 s /\ keys (records s) = keys (records s0).

  Lemma relax_body_dir_good (s0 : sim) nn (e0 : rec) d st :
    nth_error (records s0) nn = Some e0 -> In d directions4 ->
    body_loop s0 st ->
    returns (relax_body_dir (A := ZNum upm) frame g dh tol nn (e_i e0) (e_j e0) (e_ind e0) d st)
      (body_loop s0).
  Proof.
    destruct st as [s pend]. intros H0 Hd (G & Fl & K). unfold relax_body_dir.
    destruct (keys_nth _ _ _ _ K H0) as (e & He & E1 & E2 & E3).
    rewrite <- E1, <- E2, <- E3.
    assert (Hrec : rec_ok near cz s e) by (eapply move_rec; eauto).
    destruct Hrec as (Hk & Hin & _).
    destruct (directions4_neighbour d (e_i e) (e_j e) Hd) as (N & H1 & H2).
    set (ic := e_i e + fst d) in *. set (jc := e_j e + snd d) in *.
    assert (Hg : on_grid s (e_i e) (e_j e)) by (unfold inside, on_grid in *; lia).
    assert (Hgc : on_grid s ic jc) by (unfold inside, on_grid in *; lia).
    apply returns_guard.
    { rewrite (proj2 (inb_true s _ _) Hg), (proj2 (inb_true s ic jc) Hgc).
      destruct Hk as [->| ->]; auto. }
    rewrite He. zn.
    destruct (check_body_status s (e_i e) (e_j e) (e_ind e) ic jc
       (body_soil s (e_ind e + 1) (e_i e) (e_j e) - dh)) as (st & -> & Hst).
    destruct (Z.eqb_spec st 0); [cbn; auto|].
    destruct Hst as [|Hst]; [tauto|].
    set (s1 := set_equilibrium s false).
    assert (SH : same_heights s s1) by (repeat split).
    assert (G1 : good s1 (records s1 ++ pend)) by (eapply good_same; eauto).
    destruct (relax_unstable_body_cell_good s1 pend nn e ic jc G1 He Hgc N st Hst) as [[G2 F2] _].
    pose proof (relax_unstable_body_cell_keys s1 st pend nn e (e_i e) (e_j e) (e_ind e) ic jc He)
      as K2.
    destruct (relax_unstable_body_cell (A := ZNum upm) frame g dh tol s1 st pend nn e
      (e_i e) (e_j e) (e_ind e) ic jc) as [s2 pend2].
    cbn [fst snd] in *. split; [auto|]. split.
    - eapply flows_trans; [exact Fl|]. eapply flows_trans; [|exact F2]. repeat split.
    - rewrite K2. exact K.
  Qed.

  Definition body_loop3 (s0 : sim) (st : sim * list rec * list (Z * Z)) : Prop :=
    let '(s, pend, dirs) := st in
    body_loop s0 (s, pend) /\ Permutation dirs directions4.

  Lemma relax_body_record_good (s0 : sim) nn st :
    (nn < length (records s0))%nat -> body_loop3 s0 st ->
    returns (relax_body_record (A := ZNum upm) frame g dh tol nn st) (body_loop3 s0).
  Proof.
    destruct st as [[s pend] dirs]. intros Hnn [L P]. unfold relax_body_record.
    destruct (nth_error (records s0) nn) as [e0|] eqn:E0;
      [|apply nth_error_None in E0; lia].
    destruct L as (G & Fl & K).
    destruct (keys_nth _ _ _ _ K E0) as (e & He & E1 & E2 & E3). rewrite He.
    zn. destruct (e_h e <? tol); [cbn; split; [split|]; auto|].
    destruct (shuffle dirs (rng s)) as [dirs' r] eqn:Sh.
    apply shuffle_eq in Sh.
    assert (P' : Permutation dirs' directions4) by (rewrite Sh; auto).
    rewrite E1, E2, E3.
    eapply returns_bind with (P := body_loop s0).
    - apply for_each_returns.
      + intros d st1 Hd L1. apply relax_body_dir_good; auto.
        eapply Permutation_in; eauto.
      + split; [eapply good_same; [|exact G]; repeat split|].
        split; [eapply flows_trans; [exact Fl|]; repeat split|]. exact K.
    - intros [s1 pend1] L1. cbn. split; auto.
  Qed.

  Lemma relax_body_soil_good (s : sim) :
    good s (records s) ->
    returns (relax_body_soil (A := ZNum upm) frame g dh tol s)
      (fun s' => good s' (records s') /\ flows s s').
  Proof.
    intros G. unfold relax_body_soil.
    eapply returns_bind with (P := body_loop3 s).
    - apply for_each_returns.
      + intros nn st Hnn L. apply relax_body_record_good; auto.
        apply in_seq in Hnn. lia.
      + split; auto. split; [rewrite app_nil_r; auto|]. split; [apply flows_refl|auto].
    - intros [[s1 pend] dirs] ((G1 & F1 & _) & _). cbn.
      split; [eapply good_same; [|exact G1]; repeat split|].
      eapply flows_trans; [exact F1|]. repeat split.
  Qed.
End RelaxBody.
