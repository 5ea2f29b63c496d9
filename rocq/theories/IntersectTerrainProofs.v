(** MoveIntersectingBody: the terrain that goes through the body is spread around
    it, without loss. *)
From Coq Require Import ZArith List Bool Lia Permutation.
From Verif Require Import Outcome Num State Base Spec InvBase ModelRelax RelaxBase
  ModelIntersect IntersectSoilProofs.
Import ListNotations.
Open Scope Z_scope.

Section IntersectTerrain.
  Context {upm : units}.
  Local Notation sim := (sim (ZNum upm)).
  Local Notation rec := (rec_t (ZNum upm)).

  (** The terrain goes through layer [k]. *)
  Definition pierced (s : sim) (k i j : Z) : Prop :=
    body_at s k i j /\ (body s k i j : Z) < terrain s i j.

  Lemma terrain_below_pierced (s : sim) :
    (forall k i j, on_grid s i j -> layer k -> ~ pierced s k i j) <-> terrain_below s.
  Proof.
    unfold pierced. split.
    - intros H i j k Hg Hk Hb. specialize (H k i j Hg Hk).
      destruct (Z_le_gt_dec (terrain s i j) (body s k i j)); auto.
      exfalso. apply H. split; auto. lia.
    - intros H k i j Hg Hk [Hb Hl]. specialize (H i j k Hg Hk Hb). lia.
  Qed.

  Variable near : Pos (ZNum upm) -> Prop.
  Variable cz : Z.
  Variable frame : Z -> Z -> Z -> Pos (ZNum upm).
  Variable tol : Z.
  Hypothesis Htol : 0 < tol.
  Hypothesis Hcz : 2 * tol < cz.

  Local Notation ready := (ready near cz frame).

  (** Only the terrain changed; [h] units in hand became [h']. *)
  Definition spreads (s : sim) (h : Z) (s' : sim) (h' : Z) : Prop :=
    ready s' /\ same_dims s s' /\ beq s s' /\ bseq s s' /\ records s' = records s /\
    body_area s' = body_area s /\ relax_area s' = relax_area s /\
    impact_area s' = impact_area s /\ wlog s' = wlog s /\
    total_soil s' + h' = total_soil s + h /\
    0 <= h' <= h /\ aligned cz h' /\
    (forall k i j, layer k -> pierced s' k i j ->
       (terrain s' i j : Z) = terrain s i j).

  Lemma spreads_refl s h : ready s -> 0 <= h -> aligned cz h -> spreads s h s h.
  Proof.
    intros R Hh Ah. split; [auto|]. split; [split; auto|].
    split; [intros k i j; auto|]. split; [intros k i j; auto|].
    repeat (split; auto; try lia).
  Qed.

  Lemma spreads_trans s1 h1 s2 h2 s3 h3 :
    spreads s1 h1 s2 h2 -> spreads s2 h2 s3 h3 -> spreads s1 h1 s3 h3.
  Proof.
    intros (A1 & (A2 & A2') & A3 & A4 & A5 & A6 & A7 & A8 & A9 & A10 & A11 & A12 & A13)
           (B1 & (B2 & B2') & B3 & B4 & B5 & B6 & B7 & B8 & B9 & B10 & B11 & B12 & B13).
    split; [auto|]. split; [split; congruence|].
    split; [intros k i j; rewrite B3; apply A3|].
    split; [intros k i j; rewrite B4; apply A4|].
    do 5 (split; [congruence|]). split; [lia|]. split; [lia|]. split; [auto|].
    intros k i j Hk Hp. rewrite (B13 k i j Hk Hp). apply (A13 k i j Hk).
    destruct Hp as [P1 P2]. rewrite (B13 k i j Hk) in P2 by (split; auto).
    split.
    - unfold body_at in *. rewrite !B3 in P1. auto.
    - rewrite B3 in P2. auto.
  Qed.

  Lemma set_t_spreads (s : sim) i j (v h : Z) :
    ready s -> on_grid s i j -> aligned cz v ->
    0 <= v - (terrain s i j : Z) <= h -> aligned cz h ->
    (forall k, layer k -> body_at s k i j -> v <= (body s k i j : Z)) ->
    spreads s h (set_t (A := ZNum upm) s i j v) (h - (v - (terrain s i j : Z))).
  Proof.
    intros [R1 R2] Hg Av Hv Ah Hb. set (s' := set_t s i j v).
    assert (T : terrain_set s s' i j v).
    { unfold s'. split; [split; auto|]. split; [intros k i' j'; reflexivity|].
      split; [intros k i' j'; reflexivity|]. upds.
      split; [rewrite !Z.eqb_refl; reflexivity|].
      intros i' j' Hn. eqbs; auto. tauto. }
    destruct (consistent_terrain near cz s s' (records s) i j v R1 Hg Av T) as (A1 & A2 & _ & _).
    split; [split; auto|]. split; [split; auto|]. split; [intros k' i' j'; auto|].
    split; [intros k' i' j'; auto|].
    do 5 (split; [reflexivity|]). split; [lia|]. split; [lia|].
    split.
    { apply aligned_sub; auto. apply aligned_sub; auto.
      destruct R1 as (_ & _ & H1 & _). apply (H1 i j Hg). }
    intros k i' j' Hk [P1 P2]. destruct T as (_ & _ & _ & T1 & T2).
    destruct (Z.eq_dec i' i) as [->|]; [|apply T2; tauto].
    destruct (Z.eq_dec j' j) as [->|]; [|apply T2; tauto].
    rewrite T1 in P2. specialize (Hb k Hk P1). cbn in P2. lia.
  Qed.

  (** ** One ring *)

  Definition ring (dirs : list (Z * Z)) (P : Z -> Z -> Prop) (i j pp : Z) : Prop :=
    Forall (fun d => P (i + fst d * pp) (j + snd d * pp)) dirs.

  Lemma spread_ring_spreads i j pp dirs : 1 <= pp ->
    Forall (fun d => In d directions8) dirs ->
    forall (s : sim) (h : Z),
    ready s -> ring dirs (on_grid s) i j pp -> 0 <= h -> aligned cz h ->
    returns (spread_ring (A := ZNum upm) tol dirs s i j pp h)
      (fun p => spreads s h (fst p) (snd p) /\
         (terrain (fst p) i j : Z) = terrain s i j /\
         (ring dirs (inside s) i j pp \/ snd p = 0)).
  Proof.
    intros Hpp. induction 1 as [|d dirs Hd H IH]; intros s h R Hr Hh Ah.
    - cbn. split; [apply spreads_refl; auto|]. split; [auto|]. left. constructor.
    - cbn [spread_ring]. inversion Hr as [|x l Hg Hr']; subst x l.
      destruct (directions8_neighbour d Hd) as (N & D1 & D2).
      set (ip := i + fst d * pp) in *. set (jp := j + snd d * pp) in *.
      assert (Nij : ~ (i = ip /\ j = jp)).
      { intros [E1 E2]. apply N. unfold ip, jp in *. f_equal; nia. }
      assert (Keep : forall v : Z,
        (terrain (set_t (A := ZNum upm) s ip jp v) i j : Z) = terrain s i j).
      { intros v. upds. eqbs; auto; tauto. }
      apply returns_guard; [apply inb_true; auto|].
      pose proof R as [(_ & _ & H1 & _) _]. destruct (H1 ip jp Hg) as ([At A1] & [A2 _] & _).
      zn. set (t := terrain s ip jp : Z) in *.
      match goal with |- context [t + tol <? ?b] => set (bot := b) in * end.
      destruct (body_absent s 0 ip jp && body_absent s 2 ip jp) eqn:Ea.
      { apply andb_true_iff in Ea as [E0 E2].
        apply body_absent_true in E0. apply body_absent_true in E2.
        cbn [returns fst snd]. split; [|split; [apply Keep|right; reflexivity]].
        pose proof (set_t_spreads s ip jp (t + h) h R Hg) as P. fold t in P.
        replace (h - (t + h - t)) with 0 in P by lia. apply P; auto.
        - apply aligned_add; auto.
        - lia.
        - intros k [->| ->]; tauto. }
      assert (Hb : aligned cz bot /\ inside s ip jp /\
        forall k, layer k -> body_at s k ip jp -> bot <= (body s k ip jp : Z)).
      { destruct (A1 0 ltac:(lia)) as [Ab0 _]. destruct (A1 2 ltac:(lia)) as [Ab2 _].
        unfold bot, fmin. zn.
        destruct (body_absent s 0 ip jp) eqn:E0;
        destruct (body_absent s 2 ip jp) eqn:E2; try discriminate;
        try apply body_absent_true in E0; try apply body_absent_true in E2;
        try apply body_absent_spec in E0; try apply body_absent_spec in E2.
        - split; [auto|]. split; [apply (A2 2); [right|]; auto|].
          intros k [->| ->]; [tauto|zn; lia].
        - split; [auto|]. split; [apply (A2 0); [left|]; auto|].
          intros k [->| ->]; [zn; lia|tauto].
        - split; [destruct (_ <? _); auto|]. split; [apply (A2 0); [left|]; auto|].
          intros k Hk _. destruct (Z.ltb_spec (body s 2 ip jp) (body s 0 ip jp));
          destruct Hk as [->| ->]; zn; lia. }
      destruct Hb as (Ab & Hin & Hb).
      destruct (Z.ltb_spec (t + tol) bot).
      + destruct (Z.ltb_spec (bot - t) h).
        * pose proof (set_t_spreads s ip jp bot h R Hg) as P. fold t in P.
          specialize (P Ab ltac:(lia) Ah Hb).
          pose proof P as (R' & (E1 & E2) & _).
          eapply returns_weaken.
          -- apply (IH (set_t (A := ZNum upm) s ip jp bot) (h - (bot - t))); auto; try lia.
             apply aligned_sub; auto. apply aligned_sub; auto.
          -- cbn. intros p (P1 & P2 & P3). split; [eapply spreads_trans; eauto|].
             split; [rewrite P2; apply Keep|].
             destruct P3; auto. left. constructor; auto.
        * cbn [returns fst snd]. split; [|split; [apply Keep|right; reflexivity]].
          pose proof (set_t_spreads s ip jp (t + h) h R Hg) as P. fold t in P.
          replace (h - (t + h - t)) with 0 in P by lia. apply P; auto.
          -- apply aligned_add; auto.
          -- lia.
          -- intros k Hk Hbk. specialize (Hb k Hk Hbk). lia.
      + eapply returns_weaken; [apply IH; auto|].
        cbn. intros p (P1 & P2 & P3). split; auto. split; auto.
        destruct P3; auto. left. constructor; auto.
  Qed.

  Lemma ring_next (s : sim) i j pp dirs :
    Forall (fun d => In d directions8) dirs ->
    ring dirs (inside s) i j pp -> ring dirs (on_grid s) i j (pp + 1).
  Proof.
    unfold ring. rewrite !Forall_forall. intros Hd H d Hin. specialize (H d Hin).
    specialize (Hd d Hin). destruct (directions8_neighbour d Hd) as (_ & D1 & D2).
    cbn in *. unfold inside, on_grid in *. lia.
  Qed.

  Lemma spread_spreads i j dirs :
    Permutation dirs directions8 ->
    forall fuel (s : sim) (h pp : Z),
    ready s -> (ring dirs (inside s) i j pp \/ h = 0) ->
    0 <= h -> aligned cz h -> 0 <= pp -> 1 <= i -> nx s <= pp + Z.of_nat fuel ->
    returns (spread (A := ZNum upm) tol fuel dirs s i j pp h)
      (fun s' => spreads s h s' 0 /\ (terrain s' i j : Z) = terrain s i j).
  Proof.
    intros P.
    assert (Fd : Forall (fun d => In d directions8) dirs)
      by (apply Forall_forall; intros d Hd; eapply Permutation_in; eauto).
    induction fuel as [|fuel IH]; intros s h pp R Hr Hh Ah Hpp Hi Hf; cbn [spread]; zn.
    all: destruct (Z.ltb_spec tol h) as [L|L].
    2, 4: cbn; split; [|auto]; assert (h <= 0)
      by (apply aligned_le with (cz := cz) (t := tol); auto; try lia; apply aligned_0);
      replace h with 0 by lia; apply spreads_refl; auto; [lia|apply aligned_0].
    - exfalso. destruct Hr as [Hr|]; [|lia].
      assert (Hx : inside s (i + fst (1, 0) * pp) (j + snd (1, 0) * pp)).
      { unfold ring in Hr. rewrite Forall_forall in Hr. apply (Hr (1, 0)).
        eapply Permutation_in; [symmetry; exact P|]. left; auto. }
      cbn [fst snd] in Hx. unfold inside in Hx. lia.
    - eapply returns_bind.
      + apply spread_ring_spreads; auto; [lia|].
        apply ring_next; auto. destruct Hr; [auto|lia].
      + intros [s1 h1] (P1 & P2 & P3). cbn [fst snd] in *.
        pose proof P1 as (R1 & Dm & _ & _ & _ & _ & _ & _ & _ & _ & Hh1 & Ah1 & _).
        eapply returns_weaken; [apply IH; auto; try lia|].
        * destruct P3 as [P3|P3]; [left|auto].
          eapply Forall_impl; [|exact P3]. intros d. apply inside_dims; auto.
        * destruct Dm as [-> _]. lia.
        * cbn. intros s2 [Q1 Q2]. split; [eapply spreads_trans; eauto|congruence].
  Qed.

  (** ** The list of cells *)

  Definition body_covered (s : sim) : Prop :=
    forall k i j, on_grid s i j -> layer k -> body_at s k i j ->
      in_area (body_area s) i j.

  Lemma locate_intersecting_cells_good (s : sim) :
    ready s -> body_covered s -> area_in s (body_area s) ->
    returns (locate_intersecting_cells (A := ZNum upm) tol s)
      (fun l =>
         Forall (fun c => let '(k, i, j) := c in
                  layer k /\ inside s i j /\ pierced s k i j) l /\
         forall k i j, on_grid s i j -> layer k -> pierced s k i j -> In (k, i, j) l).
  Proof.
    intros R Hc Ha. unfold locate_intersecting_cells.
    pose proof R as [(_ & _ & H1 & _) _].
    assert (Hit : forall k i j, on_grid s i j -> layer k ->
      (body_present s k i j && ((body s k i j : Z) <? (terrain s i j : Z) - tol)) = true
      <-> pierced s k i j).
    { intros k i j Hg Hk. rewrite andb_true_iff, body_present_spec. zn. rewrite Z.ltb_lt.
      unfold pierced. split; [intros [? ?]; split; auto; zn; lia|].
      intros [Hb Hl]. split; auto. destruct (H1 i j Hg) as ([At A1] & _).
      destruct (A1 k) as [Ab _]; [unfold layer in Hk; lia|].
      pose proof (aligned_lt cz _ _ ltac:(lia) Ab At Hl). lia. }
    eapply returns_weaken.
    - apply for_each_returns_rest with (I := fun rest acc =>
        (forall i j, In (i, j) rest -> in_area (body_area s) i j) /\
        Forall (fun c => let '(k, i, j) := c in
                  layer k /\ inside s i j /\ pierced s k i j) acc /\
        forall k i j, on_grid s i j -> layer k -> pierced s k i j ->
          In (k, i, j) acc \/ In (i, j) rest).
      + intros [i j] rest acc (I1 & I2 & I3).
        assert (Hin : inside s i j)
          by (eapply area_in_inside; [exact Ha|]; apply I1; left; auto).
        assert (Hg : on_grid s i j) by (unfold inside, on_grid in *; lia).
        apply returns_guard; [apply inb_true; auto|]. cbn [returns]. cbv zeta beta. zn.
        pose proof (Hit 0 i j Hg ltac:(left; auto)) as Hit0.
        pose proof (Hit 2 i j Hg ltac:(right; auto)) as Hit2.
        set (c0 := body_present s 0 i j && (body s 0 i j <? terrain s i j - tol)) in *.
        set (c2 := body_present s 2 i j && (body s 2 i j <? terrain s i j - tol)) in *.
        replace (if c2 then (if c0 then acc ++ [(0, i, j)] else acc) ++ [(2, i, j)]
                 else if c0 then acc ++ [(0, i, j)] else acc)
          with (acc ++ (if c0 then [(0, i, j)] else []) ++ (if c2 then [(2, i, j)] else []))
          by (destruct c0, c2; rewrite <- ?app_assoc; cbn [app]; rewrite ?app_nil_r; reflexivity).
        split; [intros; apply I1; right; auto|]. split.
        * rewrite !Forall_app. split; [auto|].
          split; [destruct c0 eqn:Ec|destruct c2 eqn:Ec]; constructor; auto.
          -- split; [left; reflexivity|]. split; [exact Hin|apply Hit0; auto].
          -- split; [right; reflexivity|]. split; [exact Hin|apply Hit2; auto].
        * intros k i' j' Hg' Hk' Hp. rewrite !in_app_iff.
          destruct (I3 k i' j' Hg' Hk' Hp) as [|[E|]]; auto. injection E as <- <-.
          left. destruct Hk' as [->| ->].
          -- rewrite (proj2 Hit0 Hp). cbn; auto.
          -- rewrite (proj2 Hit2 Hp). cbn; auto.
      + split; [intros i j; apply in_area_cells|]. split; [constructor|].
        intros k i j Hg Hk Hp. right. apply in_area_cells. apply (Hc k); auto. apply Hp.
    - cbn. intros l (_ & A & B). split; auto.
      intros k i j Hg Hk Hp. destruct (B k i j Hg Hk Hp) as [|[]]; auto.
  Qed.

  (** ** One cell *)

  Lemma spreads_flows s s' : spreads s 0 s' 0 -> flows s s'.
  Proof.
    intros (_ & A1 & A2 & A3 & A4 & A5 & A6 & A7 & A8 & A9 & _).
    apply flows_intro; auto. lia.
  Qed.

  Definition terrain_inv (s0 : sim) (rest : list (Z * Z * Z)) (st : sim * list (Z * Z)) : Prop :=
    let '(s, dirs) := st in
    ready s /\ flows s0 s /\ bseq s0 s /\ records s = records s0 /\
    Permutation dirs directions8 /\
    Forall (fun c => let '(k, i, j) := c in
              layer k /\ inside s0 i j /\ body_at s0 k i j) rest /\
    forall k i j, on_grid s0 i j -> layer k -> pierced s k i j -> In (k, i, j) rest.

  Lemma move_terrain_cell_good fuel (s0 : sim) c rest st :
    nx s0 <= Z.of_nat fuel -> terrain_inv s0 (c :: rest) st ->
    returns (move_terrain_cell (A := ZNum upm) tol fuel c st) (terrain_inv s0 rest).
  Proof.
    destruct st as [s dirs], c as [[ind i] j].
    intros Hf (R & Fl & Bs & Er & P & Fa & Hp). unfold move_terrain_cell.
    pose proof Fl as ((Dm & Be & _ & _ & Tt) & _ & _).
    inversion Fa as [|x l Hx Fr]; subst x l. destruct Hx as (Hk & Hin0 & Hb0).
    assert (Hin : inside s i j) by (eapply inside_dims; eauto).
    assert (Hb : body_at s ind i j) by (unfold body_at in *; rewrite !Be; auto).
    assert (Hg : on_grid s i j) by (unfold inside, on_grid in *; lia).
    assert (Hg0 : on_grid s0 i j) by (unfold inside, on_grid in *; lia).
    pose proof R as [(_ & _ & H1 & _) _]. destruct (H1 i j Hg) as ([At A1] & _ & _).
    destruct (A1 ind) as [Ab _]; [unfold layer in Hk; lia|].
    zn. destruct (Z.ltb_spec (terrain s i j - tol) (body s ind i j)) as [L|L].
    - cbn. do 5 (split; [auto|]). split; [auto|].
      intros k i' j' Hg' Hk' Hp'. destruct (Hp k i' j' Hg' Hk' Hp') as [E|]; auto.
      injection E as <- <- <-. exfalso. destruct Hp' as [_ Hl].
      pose proof (aligned_lt cz _ _ ltac:(lia) Ab At Hl). zn. lia.
    - destruct (shuffle dirs (rng s)) as [dirs' r] eqn:Sh.
      apply shuffle_eq in Sh.
      assert (P' : Permutation dirs' directions8) by (rewrite Sh; auto).
      set (h := (terrain s i j : Z) - body s ind i j).
      assert (Ah : aligned cz h) by (apply aligned_sub; auto).
      eapply returns_bind.
      + apply spread_spreads with (s := set_rng s r) (h := h) (pp := 0); auto; unfold inside in *; try lia.
        * left. apply Forall_forall. intros d _. rewrite !Z.mul_0_r, !Z.add_0_r. auto.
        * destruct Dm as [Dm _]. change (nx (set_rng s r)) with (nx s). lia.
      + intros s1 [S T]. cbn [returns].
        pose proof S as (R1 & S1 & S2 & S3 & S4 & S5 & S6 & S7 & S8 & S9 & _ & _ & S10).
        replace (body s1 ind i j) with (body s ind i j) by (symmetry; apply S2).
        set (s2 := set_t (A := ZNum upm) s1 i j (body s ind i j)).
        assert (Hg1 : on_grid s1 i j) by (eapply on_grid_dims; [|exact Hg]; exact S1).
        assert (T2 : terrain_set s1 s2 i j (body s ind i j)).
        { unfold s2. split; [split; auto|]. split; [intros k i' j'; reflexivity|].
          split; [intros k i' j'; reflexivity|]. upds.
          split; [rewrite !Z.eqb_refl; reflexivity|].
          intros i' j' Hn. eqbs; auto. tauto. }
        destruct (consistent_terrain near cz s1 s2 (records s1) i j _ (proj1 R1) Hg1 Ab T2)
          as (A2 & A3 & _ & _).
        change (terrain (set_rng s r) i j) with (terrain s i j) in T.
        change (total_soil (set_rng s r)) with (total_soil s) in S9.
        assert (F2 : flows s s2).
        { apply flows_intro; auto. rewrite A3, T. unfold h in S9. zn. lia. }
        split; [split; [exact A2|apply R1]|].
        split; [eapply flows_trans; eauto|].
        split; [intros k' i' j'; cbn; rewrite S3; apply Bs|].
        split; [cbn; rewrite S4; auto|]. split; [auto|]. split; [auto|].
        intros k i' j' Hg' Hk' Hp'.
        assert (C : (i' = i /\ j' = j) \/ ~ (i' = i /\ j' = j)) by lia.
        destruct C as [[-> ->]|C].
        * destruct Hp' as [Q1 Q2].
          rewrite (proj1 (proj2 (proj2 (proj2 T2)))) in Q2.
          change (body s2 k i j) with (body s1 k i j) in Q2. rewrite S2 in Q2.
          change (body (set_rng s r) k i j) with (body s k i j) in Q2.
          assert (Q1' : body_at s k i j).
          { unfold body_at in *. change (body s2) with (body s1) in Q1. rewrite !S2 in Q1. exact Q1. }
          destruct (Hp k i j Hg' Hk') as [E|]; auto.
          -- split; auto. zn. lia.
          -- injection E as <-. zn. lia.
        * assert (Q : pierced s1 k i' j').
          { destruct Hp' as [Q1 Q2]. split; [exact Q1|].
            rewrite (proj2 (proj2 (proj2 (proj2 T2))) i' j' C) in Q2. exact Q2. }
          pose proof (S10 k i' j' Hk' Q) as Q'. destruct Q as [Q1 Q2].
          change (terrain (set_rng s r) i' j') with (terrain s i' j') in Q'.
          destruct (Hp k i' j' Hg' Hk') as [E|]; auto.
          -- split.
             ++ unfold body_at in *. rewrite !S2 in Q1. exact Q1.
             ++ rewrite Q', S2 in Q2. exact Q2.
          -- injection E as -> -> ->. tauto.
  Qed.

  Theorem move_intersecting_body_good fuel (s : sim) :
    ready s -> body_covered s -> area_in s (body_area s) -> nx s <= Z.of_nat fuel ->
    returns (move_intersecting_body (A := ZNum upm) tol fuel s)
      (fun s' => ready s' /\ flows s s' /\ bseq s s' /\ records s' = records s /\
                 terrain_below s').
  Proof.
    intros R Hc Ha Hf. unfold move_intersecting_body.
    eapply returns_bind; [apply locate_intersecting_cells_good; auto|].
    intros cells [Hcells Hall].
    eapply returns_bind.
    - apply for_each_returns_rest with (I := terrain_inv s).
      + intros c rest st I. apply move_terrain_cell_good; auto.
      + split; [auto|]. split; [apply flows_refl|]. split; [intros k i j; auto|].
        split; [auto|]. split; [auto|]. split; [|auto].
        eapply Forall_impl; [|exact Hcells]. intros [[k i] j] (A1 & A2 & A3 & _). auto.
    - intros [s1 dirs] (R1 & F1 & B1 & E1 & _ & _ & N). cbn.
      split; [auto|]. split; [auto|]. split; [auto|]. split; [auto|].
      apply terrain_below_pierced. intros k i j Hg Hk Hp.
      apply (N k i j); auto. destruct F1 as (((E2 & E3) & _) & _).
      unfold on_grid in *. rewrite <- E2, <- E3. auto.
  Qed.

  (** ** MoveIntersectingCells *)

  Lemma soil_below_bseq (s s' : sim) :
    same_dims s s' -> beq s s' -> bseq s s' -> soil_below s -> soil_below s'.
  Proof.
    intros (E1 & E2) Hb Hs H i j k. specialize (H i j k).
    unfold on_grid, body_at, soil_on in *. rewrite E1, E2, !Hs, !Hb. auto.
  Qed.

  Theorem move_intersecting_cells_good fuel (s : sim) :
    ready s -> body_covered s -> area_in s (body_area s) ->
    nx s + ny s <= Z.of_nat fuel ->
    (records_fuel s (length (records s)) <= fuel)%nat ->
    returns (move_intersecting_cells (A := ZNum upm) frame tol fuel s)
      (fun s' => good near cz frame s' (records s') /\ quiet s s' /\ loses s s').
  Proof.
    intros R Hc Ha Hf1 Hf2. unfold move_intersecting_cells.
    eapply returns_bind.
    - apply move_intersecting_body_soil_good with (near := near) (cz := cz); auto.
    - intros s1 (R1 & Q1 & L1 & SB1). pose proof Q1 as (Dm & Be & E3 & E4 & E5).
      pose proof R as [(N1 & N2 & _) _].
      eapply returns_weaken; [apply move_intersecting_body_good; auto|].
      + intros k i j Hg Hk Hb. rewrite E3. apply (Hc k).
        * destruct Dm as [E1 E2]. unfold on_grid in *. rewrite <- E1, <- E2. auto.
        * auto.
        * unfold body_at in *. rewrite !Be in Hb. auto.
      + rewrite E3. destruct Dm as [E1 E2]. unfold area_in in *. rewrite E1, E2. auto.
      + destruct Dm as [-> _]. lia.
      + cbn. intros s2 (R2 & F2 & B2 & Er & TB).
        pose proof F2 as ((F21 & F22 & F23 & F24 & F25) & F26 & F27).
        split; [|split].
        * split; [apply R2|]. split; [auto|]. split; [|apply R2].
          eapply soil_below_bseq; eauto.
        * eapply quiet_trans; eauto. split; auto.
        * eapply loses_trans; eauto. exists 0, 0%nat. cbn.
          rewrite app_nil_r. split; [lia|]. split; [lia|]. split; [auto|lia].
  Qed.
End IntersectTerrain.
