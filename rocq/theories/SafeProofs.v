(** Safety of Step in any arithmetic. *)
From Coq Require Import ZArith List Bool Lia Permutation.
From Verif Require Import Outcome Num State Base ModelRelax ModelIntersect ModelBodySoil
  ModelBodyPos ModelUtils ModelStep CodesProofs SpecSafe.
Import ListNotations.
Open Scope Z_scope.

(** ** Outcomes *)
Lemma safe_bind {X Y} (m : outcome X) (k : X -> outcome Y) P Q :
  safe m P -> (forall a, P a -> safe (k a) Q) -> safe (bind m k) Q.
Proof. destruct m; simpl; auto. Qed.

Lemma safe_weaken {X} (m : outcome X) (P Q : X -> Prop) :
  safe m P -> (forall a, P a -> Q a) -> safe m Q.
Proof. destruct m; simpl; auto. Qed.

Lemma safe_guard {X} b (m : outcome X) Q : b = true -> safe m Q -> safe (guard b m) Q.
Proof. intros ->; auto. Qed.

Lemma safe_ok {X} (m : outcome X) Q a : safe m Q -> m = Ok a -> Q a.
Proof. intros H ->; exact H. Qed.

Lemma for_each_safe {X S} (f : X -> S -> outcome S) (I : S -> Prop) l :
  (forall x s, In x l -> I s -> safe (f x s) I) ->
  forall s, I s -> safe (for_each l f s) I.
Proof.
  induction l as [|x l IH]; simpl; intros Hf s Hs; auto.
  eapply safe_bind; [apply Hf; auto|]. intros; apply IH; auto.
Qed.

Lemma for_each_safe_rest {X S} (f : X -> S -> outcome S) (I : list X -> S -> Prop) l :
  (forall x r s, I (x :: r) s -> safe (f x s) (I r)) ->
  forall s, I l s -> safe (for_each l f s) (I []).
Proof.
  induction l as [|x l IH]; simpl; intros Hf s Hs; auto.
  eapply safe_bind; [apply Hf; eauto|]. intros; apply IH; auto.
Qed.

Section Safe.
  Context {A : Num}.
  Local Notation sim := (sim A).
  Variable g : grid_t A.
  Variable P : params A.
  Variable near : Pos A -> Prop.
  Hypothesis Harith : arithmetic_ok g P.
  Hypothesis Hsize : size_ok g P.
  Notation tol := (p_tol P).

  (** The cell is off the border ring. *)
  Definition interior (i j : Z) : Prop :=
    1 <= i <= 2 * half_x g - 1 /\ 1 <= j <= 2 * half_y g - 1.

  Lemma in_area_interior a i j : off_border g a -> in_area a i j -> interior i j.
  Proof. unfold off_border, in_area, interior; lia. Qed.

  (** The body is in its area, and [near] holds of the positions of its tops. *)
  Definition body_inside (frame : Z -> Z -> F A -> Pos A) (s : sim) : Prop :=
    forall k i j, k = 0 \/ k = 2 -> inb s i j = true -> body_present s k i j = true ->
      in_area (body_area s) i j /\ near (frame i j (body s (k + 1) i j)).

  Definition inv (frame : Z -> Z -> F A -> Pos A) (s : sim) : Prop :=
    (nx s = 2 * half_x g + 1 /\ ny s = 2 * half_y g + 1) /\
    off_border g (body_area s) /\ off_border g (relax_area s) /\
    body_inside frame s /\ Forall (rec_inside g near) (records s).

  Lemma absent_present (s : sim) k i j : body_absent s k i j = negb (body_present s k i j).
  Proof.
    unfold body_absent, body_present. destruct (feqb _ _), (feqb _ _); reflexivity.
  Qed.

  Lemma not_absent (s : sim) k i j :
    body_absent s k i j = false -> body_present s k i j = true.
  Proof. rewrite absent_present. destruct (body_present _ _ _ _); auto. Qed.

  Lemma inb_interior frame (s : sim) i j : inv frame s -> interior i j -> inb s i j = true.
  Proof.
    intros ((Hx & Hy) & _) (Hi & Hj). unfold inb. rewrite Hx, Hy.
    repeat (apply andb_true_iff; split); rewrite ?Z.leb_le, ?Z.ltb_lt; lia.
  Qed.

  (** The neighbours of an interior cell are in the grid. *)
  Lemma inb_next frame (s : sim) i j i' j' : inv frame s -> interior i j ->
    Z.abs (i' - i) <= 1 -> Z.abs (j' - j) <= 1 -> inb s i' j' = true.
  Proof.
    intros ((Hx & Hy) & _) (Hi & Hj) Di Dj. unfold inb. rewrite Hx, Hy.
    repeat (apply andb_true_iff; split); rewrite ?Z.leb_le, ?Z.ltb_lt; lia.
  Qed.

  Section Frame.
  Variable frame : Z -> Z -> F A -> Pos A.
  Notation inv := (inv frame).

  Lemma present_interior (s : sim) k i j : inv s -> k = 0 \/ k = 2 -> inb s i j = true ->
    body_present s k i j = true -> interior i j /\ near (frame i j (body s (k + 1) i j)).
  Proof.
    intros (_ & Ha & _ & Hb & _) Hk Hi Hp. destruct (Hb k i j Hk Hi Hp) as [Ia Nr].
    split; auto. eapply in_area_interior; eauto.
  Qed.

  (** *** Writing something else than the body *)
  Lemma inv_t s i j v : inv s -> inv (set_t s i j v).
  Proof. exact (fun H => H). Qed.
  Lemma inv_bs s k i j v : inv s -> inv (set_bs s k i j v).
  Proof. exact (fun H => H). Qed.
  Lemma inv_rng s r : inv s -> inv (set_rng s r).
  Proof. exact (fun H => H). Qed.
  Lemma inv_warn s w : inv s -> inv (warn s w).
  Proof. exact (fun H => H). Qed.
  Lemma inv_equilibrium s b : inv s -> inv (set_equilibrium s b).
  Proof. exact (fun H => H). Qed.
  Lemma inv_impact s a : inv s -> inv (set_impact_area s a).
  Proof. exact (fun H => H). Qed.
  Lemma inv_records s l : Forall (rec_inside g near) l -> inv s -> inv (set_records s l).
  Proof. intros Hl (H1 & H2 & H3 & H4 & _). repeat (split; [assumption|]). exact Hl. Qed.
  Lemma inv_push s e : rec_inside g near e -> inv s -> inv (push_record s e).
  Proof.
    intros He H. apply inv_records; auto. apply Forall_app. split; [apply H|].
    constructor; auto.
  Qed.
  Lemma inv_record_h s nn e h : rec_inside g near e -> inv s -> inv (set_record_h s nn e h).
  Proof.
    intros He H. apply inv_records; auto. apply Forall_list_set; [apply H|]. exact He.
  Qed.
  Lemma inv_relax_area s a : off_border g a -> inv s -> inv (set_relax_area s a).
  Proof. intros Ha (H1 & H2 & _ & H3). repeat (split; [assumption|]). exact H3. Qed.

  Lemma rec_at (s : sim) k i j h : inv s -> k = 0 \/ k = 2 -> inb s i j = true ->
    body_present s k i j = true ->
    rec_inside g near (mkRec k i j (frame i j (body s (k + 1) i j)) h).
  Proof.
    intros H Hk Hi Hp. destruct (present_interior s k i j H Hk Hi Hp) as ((? & ?) & ?).
    repeat split; auto; cbn; lia.
  Qed.

  Lemma nth_rec (s : sim) nn e : inv s -> nth_error (records s) nn = Some e ->
    rec_inside g near e.
  Proof.
    intros (_ & _ & _ & _ & H) He. rewrite Forall_forall in H.
    apply H. eapply nth_error_In; eauto.
  Qed.

  Ltac keep :=
    repeat first
      [ assumption
      | apply inv_t | apply inv_bs | apply inv_rng | apply inv_warn | apply inv_equilibrium
      | apply inv_push | apply inv_record_h
      | apply rec_at ].

  Ltac cases :=
    repeat match goal with
    | |- context [if ?b then _ else _] =>
        lazymatch b with context [if _ then _ else _] => fail | _ => destruct b eqn:? end
    end.

  (** *** Soil that intersects the body *)
  Definition stopped (w : walk (A := A)) : Prop := w_wall w = true \/ w_h w = f0.

  Lemma not_above_tol : fltb tol f0 = false.
  Proof. exact (proj1 (proj2 Harith)). Qed.

  Lemma move_single_safe s w max_h k i j :
    inv s -> k = 0 \/ k = 2 -> inb s i j = true -> body_present s k i j = true ->
    let '(s', w') := move_single frame tol s w max_h k i j in
    inv s' /\ stopped w' /\ w_i w' = w_i w /\ w_j w' = w_j w.
  Proof.
    intros H Hk Hi Hp. unfold move_single, stopped. cbv zeta. cases; cbn -[inv];
      (split; [keep; auto|auto]).
  Qed.

  Lemma move_between_safe s w i j :
    inv s -> inb s i j = true ->
    body_present s 0 i j = true -> body_present s 2 i j = true ->
    let '(s', w') := move_between frame tol s w i j in
    inv s' /\ ((w_i w' = i /\ w_j w' = j) \/ (w_i w' = w_i w /\ w_j w' = w_j w)).
  Proof.
    intros H Hi Hp Hp2. unfold move_between.
    destruct (fltb (body s 0 i j) (body s 2 i j)); cbv zeta beta iota; cases; cbn -[inv];
      (split; [keep; auto|auto]).
  Qed.

  Lemma move_body_soil_safe s w max_h i j :
    inv s -> inb s i j = true -> interior (w_i w) (w_j w) ->
    safe (move_body_soil frame tol s w max_h i j)
      (fun '(s', w') => inv s' /\ interior (w_i w') (w_j w') /\
         (stopped w' \/ interior i j)).
  Proof.
    intros H Hi Hw. unfold move_body_soil.
    apply safe_guard; [rewrite Hi; apply (inb_interior frame); auto|].
    cbv zeta. rewrite !absent_present.
    destruct (body_present s 0 i j) eqn:P0, (body_present s 2 i j) eqn:P2; cbn [negb andb safe].
    - destruct (present_interior s 0 i j H ltac:(auto) Hi P0) as [Ii _].
      generalize (move_between_safe s w i j H Hi P0 P2).
      destruct (move_between _ _ _ _ _ _) as [s' w']. intros (H' & [[-> ->]|[-> ->]]); auto.
    - generalize (move_single_safe s w max_h 0 i j H ltac:(auto) Hi P0).
      destruct (move_single _ _ _ _ _ _ _ _) as [s' w']. intros (H' & St & -> & ->); auto.
    - generalize (move_single_safe s w max_h 2 i j H ltac:(auto) Hi P2).
      destruct (move_single _ _ _ _ _ _ _ _) as [s' w']. intros (H' & St & -> & ->); auto.
    - split; [keep|]. cbn. split; auto. left; right; reflexivity.
  Qed.

  Definition unit_dir (d : Z * Z) : Prop := Z.abs (fst d) <= 1 /\ Z.abs (snd d) <= 1.

  Lemma explore_safe fuel : forall s w max_h i j d pp,
    inv s -> interior (w_i w) (w_j w) -> unit_dir d ->
    stopped w \/ interior (i + pp * fst d) (j + pp * snd d) ->
    safe (explore frame tol fuel s w max_h i j d pp) (fun '(s', w') => inv s').
  Proof.
    induction fuel as [|fuel IH]; intros s w max_h i j d pp H Hw Hd St; cbn [explore].
    - destruct (_ && _); cbn [safe]; auto.
    - destruct (negb (w_wall w) && fltb tol (w_h w)) eqn:E; cbn [safe]; auto.
      assert (Ii : interior (i + pp * fst d) (j + pp * snd d)).
      { destruct St as [[W|W]|]; auto.
        - rewrite W in E; discriminate.
        - rewrite W, not_above_tol, andb_false_r in E; discriminate. }
      destruct Hd as [Dx Dy].
      eapply safe_bind.
      + apply move_body_soil_safe; auto.
        eapply inb_next; [eassumption|exact Ii| |].
        * replace (i + (pp + 1) * fst d - (i + pp * fst d)) with (fst d) by ring. auto.
        * replace (j + (pp + 1) * snd d - (j + pp * snd d)) with (snd d) by ring. auto.
      + intros [s' w'] (H' & Iw & St'). apply safe_guard.
        * eapply inb_interior; eauto.
        * apply IH; auto. split; auto.
  Qed.

  Lemma explore_all_safe fuel dirs : forall s ind ind_t i j h,
    inv s -> interior i j -> Forall unit_dir dirs ->
    safe (explore_all frame tol fuel dirs s ind ind_t i j h) (fun '(s', _) => inv s').
  Proof.
    induction dirs as [|d dirs IH]; intros s ind ind_t i j h H Hi Hd; cbn [explore_all]; auto.
    inversion Hd; subst. eapply safe_bind.
    - apply explore_safe; cbn; auto. right.
      replace (i + 0 * fst d) with i by ring. replace (j + 0 * snd d) with j by ring. auto.
    - intros [s' w'] H'. destruct (fltb _ _); cbn [safe]; auto.
  Qed.

  Lemma layer_ok_in k : k = 0 \/ k = 2 -> layer_ok k = true.
  Proof. intros [->| ->]; reflexivity. Qed.

  Lemma shuffle_forall {X} (Q : X -> Prop) (l : list X) r :
    Forall Q l -> Forall Q (fst (shuffle l r)).
  Proof. intros H. eapply Permutation_Forall; [symmetry; apply shuffle_permutation|auto]. Qed.

  Lemma move_record_safe fuel nn e s dirs :
    inv s -> rec_inside g near e -> Forall unit_dir dirs ->
    safe (move_record frame tol fuel nn e s dirs)
      (fun '(s', dirs') => inv s' /\ Forall unit_dir dirs').
  Proof.
    intros H He Hd. pose proof He as (Hk & Hi & Hj & _). unfold move_record. cbv zeta.
    assert (Ii : interior (e_i e) (e_j e)) by (split; auto).
    apply safe_guard.
    { rewrite (layer_ok_in _ Hk). apply (inb_interior frame); auto. }
    destruct (body_absent _ _ _ _); cbn [safe]; auto.
    destruct (_ && _); cbn [safe]; auto.
    match goal with |- context [if ?b then (_, set_record_h _ _ _ _) else _] =>
      destruct b end; cbv beta iota;
    match goal with |- context [shuffle ?l ?r] =>
      pose proof (shuffle_forall unit_dir l r Hd) as Hd'; destruct (shuffle l r) as [d' r'] end;
    cbn [fst] in Hd'; eapply safe_bind;
    try (apply explore_all_safe; [keep|assumption|assumption]);
    intros [s' h'] H'; cbn [safe]; destruct (fltb _ _); split; auto.
  Qed.

  Lemma move_records_safe fuel wf : forall nn s dirs,
    inv s -> Forall unit_dir dirs ->
    safe (move_records frame tol fuel wf nn s dirs) inv.
  Proof.
    induction fuel as [|fuel IH]; intros nn s dirs H Hd; cbn [move_records];
      destruct (nth_error (records s) nn) as [e|] eqn:E; cbn [safe]; auto.
    eapply safe_bind.
    - apply move_record_safe; auto. eapply nth_rec; eauto.
    - intros [s' d'] [H' Hd']. auto.
  Qed.

  Lemma directions8_unit : Forall unit_dir directions8.
  Proof. unfold directions8, unit_dir. repeat constructor; cbn; lia. Qed.
  Lemma directions4_unit : Forall unit_dir directions4.
  Proof. unfold directions4, unit_dir. repeat constructor; cbn; lia. Qed.

  (** *** Terrain that intersects the body *)
  Lemma spread_ring_safe dirs : forall s i j pp h,
    inv s -> (forall d, In d dirs -> inb s (i + fst d * pp) (j + snd d * pp) = true) ->
    safe (spread_ring tol dirs s i j pp h)
      (fun '(s', h') => inv s' /\ body_area s' = body_area s /\
         (h' = f0 \/ forall d, In d dirs -> interior (i + fst d * pp) (j + snd d * pp))).
  Proof.
    induction dirs as [|d dirs IH]; intros s i j pp h H Hin; cbn [spread_ring].
    - split; auto. split; auto. right; intros ? [].
    - assert (Hd : inb s (i + fst d * pp) (j + snd d * pp) = true) by (apply Hin; left; auto).
      apply safe_guard; auto. cbv zeta. rewrite !absent_present.
      assert (Q : forall s' h', inv s' -> body_area s' = body_area s ->
        (forall d, In d dirs -> inb s' (i + fst d * pp) (j + snd d * pp) = true) ->
        interior (i + fst d * pp) (j + snd d * pp) ->
        safe (spread_ring tol dirs s' i j pp h')
          (fun '(s', h') => inv s' /\ body_area s' = body_area s /\
             (h' = f0 \/ forall d', In d' (d :: dirs) ->
                interior (i + fst d' * pp) (j + snd d' * pp)))).
      { intros s' h' H' Ea Hin' Ii. eapply safe_weaken; [apply IH; auto|].
        intros [s2 h2] (H2 & Ea2 & Hr). split; auto. split; [congruence|].
        destruct Hr as [->|Hr]; auto. right. intros d' [<-|Id]; auto. }
      destruct (negb (body_present s 0 _ _) && _) eqn:Eb.
      { cbn [safe]. split; [keep|]. auto. }
      assert (Ii : interior (i + fst d * pp) (j + snd d * pp)).
      { apply andb_false_iff in Eb as [Eb|Eb]; apply negb_false_iff in Eb.
        - exact (proj1 (present_interior s 0 _ _ H (or_introl eq_refl) Hd Eb)).
        - exact (proj1 (present_interior s 2 _ _ H (or_intror eq_refl) Hd Eb)). }
      destruct (fltb (fadd _ _) _).
      + destruct (fltb (fsub _ _) _).
        * apply Q; auto. intros d' Id. apply Hin; right; auto.
        * cbn [safe]. split; [keep|]. auto.
      + apply Q; auto. intros d' Id. apply Hin; right; auto.
  Qed.

  (** At least one step along X or Y: what is needed to reach the border. *)
  Lemma spread_safe fuel : forall dirs s i j pp h,
    inv s -> Forall unit_dir dirs ->
    h = f0 \/ (forall d, In d dirs -> interior (i + fst d * pp) (j + snd d * pp)) ->
    safe (spread tol fuel dirs s i j pp h) (fun s' => inv s' /\ body_area s' = body_area s).
  Proof.
    induction fuel as [|fuel IH]; intros dirs s i j pp h H Hd Hr; cbn [spread].
    - destruct (fltb _ _); cbn [safe]; auto.
    - destruct (fltb tol h) eqn:E; cbn [safe]; auto.
      assert (Hr' : forall d, In d dirs -> interior (i + fst d * pp) (j + snd d * pp)).
      { destruct Hr as [->|Hr]; auto. rewrite not_above_tol in E; discriminate. }
      eapply safe_bind.
      + apply spread_ring_safe; auto. intros d Id.
        rewrite Forall_forall in Hd. destruct (Hd d Id) as [Dx Dy].
        eapply inb_next; [eassumption|apply (Hr' d Id)| |].
        * replace (i + fst d * (pp + 1) - (i + fst d * pp)) with (fst d) by ring. auto.
        * replace (j + snd d * (pp + 1) - (j + snd d * pp)) with (snd d) by ring. auto.
      + intros [s' h'] (H' & Ea & Hr2). eapply safe_weaken; [apply IH; auto|].
        cbv beta. intros s2 [? ?]; split; congruence || auto.
  Qed.

  Lemma move_terrain_cell_safe fuel c s dirs a :
    inv s -> body_area s = a -> Forall unit_dir dirs ->
    interior (snd (fst c)) (snd c) ->
    safe (move_terrain_cell tol fuel c (s, dirs))
      (fun '(s', dirs') => inv s' /\ body_area s' = a /\ Forall unit_dir dirs').
  Proof.
    destruct c as [[k i] j]. cbn [fst snd]. intros H Ea Hd Ii. unfold move_terrain_cell.
    destruct (fltb _ _); cbn [safe]; auto.
    match goal with |- context [shuffle ?l ?r] =>
      pose proof (shuffle_forall unit_dir l r Hd) as Hd'; destruct (shuffle l r) as [d' r'] end.
    cbn [fst] in Hd'. eapply safe_bind.
    - apply spread_safe; [keep|auto|]. right. intros d Id.
      replace (i + fst d * 0) with i by ring. replace (j + snd d * 0) with j by ring. auto.
    - cbv beta. intros s' [H' Ea']. cbn [safe]. split; [keep|]. split; auto.
      change (body_area s' = a). rewrite Ea'. exact Ea.
  Qed.

  Lemma locate_cells_safe s : inv s ->
    safe (locate_intersecting_cells tol s)
      (fun l => forall c, In c l -> interior (snd (fst c)) (snd c)).
  Proof.
    intros H. unfold locate_intersecting_cells.
    apply for_each_safe; [|intros ? []].
    intros [i j] acc Hc Hacc. apply in_area_cells in Hc.
    assert (Ii : interior i j) by (eapply in_area_interior; [destruct H as (_ & Ha & _); exact Ha|auto]).
    apply safe_guard; [eapply inb_interior; eauto|]. cbv zeta.
    cbn [safe]. intros c.
    destruct (_ && _), (_ && _); rewrite ?in_app_iff; cbn [In];
      intros Hin; repeat destruct Hin as [Hin|Hin]; try tauto; subst; auto.
  Qed.

  Lemma move_intersecting_cells_safe fuel s : inv s ->
    safe (move_intersecting_cells frame tol fuel s) inv.
  Proof.
    intros H. unfold move_intersecting_cells. eapply safe_bind.
    { apply move_records_safe; auto. apply directions8_unit. }
    intros s1 H1. unfold move_intersecting_body. eapply safe_bind.
    { apply locate_cells_safe; auto. }
    intros l Hl. eapply safe_bind.
    - apply (for_each_safe _ (fun '(s', dirs) => inv s' /\ body_area s' = body_area s1 /\
        Forall unit_dir dirs)).
      + intros c [s' dirs] Ic (H' & Ea & Hd). apply move_terrain_cell_safe; auto.
      + split; auto. split; auto. apply directions8_unit.
    - intros [s' d'] (H' & _). exact H'.
  Qed.

  (** *** Relaxation of the terrain *)
  Variable dh_max : F A.

  (** What the code tells about the body. *)
  Definition code_present (s : sim) (st i j : Z) : Prop :=
    ((st mod 10 = 1 \/ st mod 10 = 2) -> body_present s 2 i j = true) /\
    ((st mod 10 = 3 \/ st mod 10 = 4) -> body_present s 0 i j = true).

  Lemma terrain_code_present (s : sim) i j h_min :
    let st := check_unstable_terrain_cell tol s i j h_min in
    code_present s st i j /\
    (st mod 10 = 0 -> st = 0 \/ st / 10 = 1 \/ st / 10 = 2 \/ st / 10 = 3 \/ st / 10 = 4).
  Proof.
    cbv zeta. generalize (check_terrain_codes tol s i j h_min). cbv zeta.
    generalize (check_unstable_terrain_cell tol s i j h_min). intros st.
    unfold first_digit, codes, code_present. rewrite !absent_present.
    destruct (body_present s 0 i j), (body_present s 2 i j); cbn [negb Z.eqb];
    cbn; intros Hc; repeat destruct Hc as [Hc|Hc]; try tauto; subst;
      try (destruct Hc as [? ?]; subst; try discriminate);
      cbn; repeat split; intros; try reflexivity; try tauto; try (lia);
      repeat match goal with H : _ \/ _ |- _ => destruct H; try discriminate; try lia end.
  Qed.

  Lemma relax_unstable_terrain_cell_safe s st i j ic jc :
    inv s -> inb s ic jc = true -> code_present s st ic jc ->
    (st mod 10 = 0 -> st / 10 = 1 \/ st / 10 = 2 \/ st / 10 = 3 \/ st / 10 = 4) ->
    safe (relax_unstable_terrain_cell frame g dh_max tol s st i j ic jc) inv.
  Proof.
    intros H Hc [C2 C0] Cb. unfold relax_unstable_terrain_cell. cbv zeta.
    destruct (st mod 10 =? 0) eqn:E0; [apply Z.eqb_eq in E0|].
    - destruct (st / 10 =? 4) eqn:E4; [cbn [safe]; keep|].
      apply Z.eqb_neq in E4.
      destruct (st / 10 =? 1) eqn:E1; [|destruct (st / 10 =? 2) eqn:E2;
        [|destruct (st / 10 =? 3) eqn:E3]]; cbn [bind].
      4: { apply Z.eqb_neq in E1, E2, E3. exfalso. destruct (Cb E0) as [?|[?|[?|?]]]; auto. }
      all: destruct (fltb _ _); cbn [safe]; keep.
    - destruct (st mod 10 =? 1) eqn:E1; [apply Z.eqb_eq in E1|
      destruct (st mod 10 =? 2) eqn:E2; [apply Z.eqb_eq in E2|
      destruct (st mod 10 =? 3) eqn:E3; [apply Z.eqb_eq in E3|
      destruct (st mod 10 =? 4) eqn:E4; [apply Z.eqb_eq in E4|exact H]]]];
      cbn [safe]; unfold terrain_onto_body_soil, terrain_onto_body; cbv zeta; cases;
      (apply inv_push; [|keep]);
      match goal with |- rec_inside _ _ (mkRec ?k _ _ (frame _ _ _) _) =>
        apply (rec_at s k ic jc); auto end.
  Qed.

  Lemma relax_terrain_dir_safe i j d s :
    inv s -> interior i j -> unit_dir d ->
    safe (relax_terrain_dir frame g dh_max tol i j d s) inv.
  Proof.
    intros H Ii [Dx Dy]. unfold relax_terrain_dir. cbv zeta.
    assert (Hc : inb s (i + fst d) (j + snd d) = true).
    { eapply inb_next; eauto; lia. }
    apply safe_guard; [rewrite Hc, (inb_interior frame); auto|].
    destruct (terrain_code_present s (i + fst d) (j + snd d) (fsub (terrain s i j) dh_max))
      as [Cp Cz].
    destruct (_ =? 0) eqn:E; [exact H|]. apply Z.eqb_neq in E.
    apply relax_unstable_terrain_cell_safe; auto. intros M. destruct (Cz M); tauto.
  Qed.

  Lemma locate_unstable_safe s : inv s -> off_border g (impact_area s) ->
    safe (locate_unstable_terrain_cell dh_max tol s)
      (fun l => forall c, In c l -> interior (fst c) (snd c)).
  Proof.
    intros H Ha. unfold locate_unstable_terrain_cell.
    apply for_each_safe; [|intros ? []].
    intros [i j] acc Hc Hacc. apply in_area_cells in Hc. cbn [fst snd].
    assert (Ii : interior i j) by (eapply in_area_interior; eauto).
    unfold unstable_candidate. eapply safe_bind.
    - apply safe_guard with (Q := fun _ => True).
      + rewrite !(fun i2 j2 X Y => inb_next frame s i j i2 j2 H Ii X Y) by lia. reflexivity.
      + cbn; auto.
    - intros b _. cbn [safe]. destruct b; auto.
      intros c Hin. apply in_app_iff in Hin as [Hin|[<-|[]]]; auto.
  Qed.

  Definition box_ok (b : area) : Prop :=
    0 <= x_lo b <= 2 * half_x g /\ 0 <= x_hi b <= 2 * half_x g /\
    0 <= y_lo b <= 2 * half_y g /\ 0 <= y_hi b <= 2 * half_y g.

  Lemma relax_terrain_safe s : inv s -> off_border g (impact_area s) ->
    safe (relax_terrain frame g dh_max (p_cell_buffer P) tol s) inv.
  Proof.
    intros H Ha. unfold relax_terrain. cbv zeta.
    eapply safe_bind; [apply locate_unstable_safe; [keep|exact Ha]|].
    intros cells Hc. destruct cells as [|c0 l0] eqn:El; [cbn; keep|]. rewrite <- El in *.
    clear c0 l0 El.
    match goal with |- context [shuffle ?l ?r] =>
      pose proof (shuffle_permutation l r) as Pm; destruct (shuffle l r) as [l' r'] end.
    cbn [fst] in Pm. destruct Hsize as (Sx & Sy & Sb & Ix & Iy).
    eapply safe_bind.
    - apply (for_each_safe _ (fun '(s', b, dirs) => inv s' /\ box_ok b /\ Forall unit_dir dirs)).
      + intros [i j] [[s' b] dirs] Ic (H' & Hb & Hd).
        assert (Ii : interior i j).
        { apply (Hc (i, j)). eapply Permutation_in; eauto. }
        unfold relax_terrain_cell.
        match goal with |- context [shuffle ?l ?r] =>
          pose proof (shuffle_forall unit_dir l r Hd) as Hd'; destruct (shuffle l r) as [d' r2] end.
        cbn [fst] in Hd'. eapply safe_bind.
        * apply (for_each_safe _ inv); [|keep].
          intros d s2 Id H2. apply relax_terrain_dir_safe; auto.
          rewrite Forall_forall in Hd'. auto.
        * intros s2 H2. cbn [safe]. split; auto. split; auto.
          unfold interior in Ii. unfold box_ok, grow_box in *. cbn. lia.
      + split; [keep|]. split; [unfold box_ok; cbn; lia|apply directions4_unit].
    - intros [[s' b] dirs] (H' & Hb & _). unfold box_ok in Hb.
      assert (C : forall z, -2147483648 <= z <= 2147483647 -> chk_int z = Ok z).
      { intros z Hz. unfold chk_int, int_ok.
        destruct (Z.leb_spec (-2147483648) z); [|lia].
        destruct (Z.leb_spec z 2147483647); [reflexivity|lia]. }
      rewrite !C by lia. cbn [bind safe]. apply inv_relax_area; [|exact H'].
      unfold off_border. cbn. lia.
  Qed.

  (** *** Relaxation of the soil on the body *)
  Lemma body_code_present (s : sim) i0 j0 ind i j h_min :
    exists st, check_unstable_body_cell tol s i0 j0 ind i j h_min = Some st /\
      code_present s st i j.
  Proof.
    unfold check_unstable_body_cell, code_present. rewrite !absent_present.
    destruct (body_present s 0 i j), (body_present s 2 i j); cbn [negb andb].
    - match goal with |- exists st, ?m = _ /\ _ =>
        assert (exists st, m = Some st) as [st ->] end; [|exists st; auto].
      cbv zeta. destruct (fltb (body s 0 i j) (body s 2 i j)); cbv beta iota;
        cases; cbv beta iota; try (eexists; reflexivity);
        repeat match goal with
        | E : (_ || _) = false |- _ => apply orb_false_iff in E as [? ?]
        | E : (30 =? 30) = false |- _ => discriminate E
        end.
    - eexists; split; [reflexivity|]. cases; cbn; split; intros [|]; auto; discriminate.
    - eexists; split; [reflexivity|]. cases; cbn; split; intros [|]; auto; discriminate.
    - eexists; split; [reflexivity|]. cases; cbn; split; intros [|]; auto; discriminate.
  Qed.

  Definition kept (n : nat) (s : sim) : Prop := inv s /\ length (records s) = n.

  Lemma kept_bs n s k i j v : kept n s -> kept n (set_bs s k i j v).
  Proof. exact (fun H => H). Qed.
  Lemma kept_t n s i j v : kept n s -> kept n (set_t s i j v).
  Proof. exact (fun H => H). Qed.
  Lemma kept_equilibrium n s b : kept n s -> kept n (set_equilibrium s b).
  Proof. exact (fun H => H). Qed.
  Lemma kept_rng n s r : kept n s -> kept n (set_rng s r).
  Proof. exact (fun H => H). Qed.
  Lemma kept_record_h n s nn e h :
    rec_inside g near e -> kept n s -> kept n (set_record_h s nn e h).
  Proof.
    intros He [H L]. split; [apply inv_record_h; auto|].
    cbn. rewrite list_set_length. exact L.
  Qed.

  Ltac keepn :=
    repeat first
      [ assumption
      | apply kept_t | apply kept_bs | apply kept_equilibrium | apply kept_rng
      | apply kept_record_h ].

  Lemma take_soil_kept n s nn e ind i j h_new h_soil :
    rec_inside g near e -> kept n s -> kept n (take_soil tol s nn e ind i j h_new h_soil).
  Proof. intros He H. unfold take_soil. cases; keepn. Qed.

  Lemma relax_unstable_body_cell_kept n s st pend nn e i j ind ic jc :
    rec_inside g near e -> Forall (rec_inside g near) pend -> kept n s ->
    inb s ic jc = true -> code_present s st ic jc ->
    let '(s', pend') := relax_unstable_body_cell frame g dh_max tol s st pend nn e i j ind ic jc
    in kept n s' /\ Forall (rec_inside g near) pend'.
  Proof.
    intros He Hp H Hc [C2 C0]. unfold relax_unstable_body_cell. cbv zeta.
    assert (K : forall k h, (k = 0 \/ k = 2) -> body_present s k ic jc = true ->
      rec_inside g near (mkRec k ic jc (frame ic jc (body s (k + 1) ic jc)) h)).
    { intros k h Hk Hb. apply rec_at; auto. apply H. }
    assert (App : forall l, Forall (rec_inside g near) l ->
      Forall (rec_inside g near) (pend ++ l)).
    { intros l Hl. apply Forall_app; auto. }
    assert (Bt : forall s' k, body (take_soil tol s' nn e ind i j k (f0 (n := A))) = body s').
    { intros s' k. unfold take_soil. cases; reflexivity. }
    assert (Hone : forall soil k, (k = 0 \/ k = 2) -> body_present s k ic jc = true ->
      let p := body_onto_single frame g dh_max tol s soil k nn e ind i j ic jc in
      kept n (fst p) /\ Forall (rec_inside g near) (pend ++ [snd p])).
    { intros soil k Hk Hb. unfold body_onto_single. cbv zeta.
      destruct soil; destruct (moved _ _ _ _ _ _ _ _) as [h_new h_soil]; cbn [fst snd];
        (split; [apply kept_bs; apply take_soil_kept; keepn|apply App; constructor; auto]). }
    assert (Hsoil : forall k o, (k = 0 \/ k = 2) -> body_present s k ic jc = true ->
      let p := body_onto_two_soil frame g dh_max tol s k o nn e ind i j ic jc in
      kept n (fst p) /\ Forall (rec_inside g near) (pend ++ snd p)).
    { intros k o Hk Hb. unfold body_onto_two_soil. cbv zeta.
      destruct (moved _ _ _ _ _ _ _ _) as [h_new h_soil].
      destruct (_ && _ && _); cbv beta iota; cbn [fst snd];
        (split; [first [apply take_soil_kept; auto; keepn|keepn]|]).
      - destruct (fltb _ _); [|rewrite app_nil_r; auto]. apply App; constructor; auto.
        exact (K k _ Hk Hb).
      - destruct (fltb _ _); [|rewrite app_nil_r; auto]. apply App; constructor; auto.
        unfold take_soil. cases; exact (K k _ Hk Hb). }
    assert (Hbody : forall k o, (k = 0 \/ k = 2) -> body_present s k ic jc = true ->
      let p := body_onto_two_body frame g dh_max tol s k o nn e ind i j ic jc in
      kept n (fst p) /\ Forall (rec_inside g near) (pend ++ [snd p])).
    { intros k o Hk Hb. unfold body_onto_two_body. cbv zeta.
      destruct (moved _ _ _ _ _ _ _ _) as [h_new h_soil].
      cases; cbv beta iota; cbn [fst snd];
        (split; [first [apply take_soil_kept; auto; keepn|keepn]|apply App; constructor; auto]). }
    destruct (st mod 10 =? 0) eqn:E0.
    { split; auto. unfold body_onto_terrain. cbv zeta. cases; keepn. }
    destruct (st mod 10 =? 1) eqn:E1; [apply Z.eqb_eq in E1|];
    (destruct (st mod 10 =? 2) eqn:E2; [apply Z.eqb_eq in E2|]);
    (destruct (st mod 10 =? 3) eqn:E3; [apply Z.eqb_eq in E3|]);
    (destruct (st mod 10 =? 4) eqn:E4; [apply Z.eqb_eq in E4|]);
    try congruence;
    (destruct (st / 10 =? 1); [|destruct (st / 10 =? 2); [|destruct (st / 10 =? 3)]]);
    auto.
  Qed.

  Lemma relax_body_dir_safe n nn i j ind d s pend :
    kept n s -> (nn < n)%nat -> Forall (rec_inside g near) pend ->
    interior i j -> ind = 0 \/ ind = 2 -> unit_dir d ->
    safe (relax_body_dir frame g dh_max tol nn i j ind d (s, pend))
      (fun '(s', pend') => kept n s' /\ Forall (rec_inside g near) pend').
  Proof.
    intros H Hn Hp Ii Hk [Dx Dy]. unfold relax_body_dir. cbv zeta.
    assert (Hc : inb s (i + fst d) (j + snd d) = true).
    { eapply inb_next; [apply H|eauto| |]; lia. }
    apply safe_guard.
    { rewrite Hc, (layer_ok_in _ Hk), (inb_interior frame); auto. apply H. }
    destruct (body_code_present s i j ind (i + fst d) (j + snd d)
      (fsub (body_soil s (ind + 1) i j) dh_max)) as (st & -> & Cp).
    destruct (nth_error (records s) nn) as [e|] eqn:E.
    - destruct (st =? 0); cbn [safe]; auto.
      assert (He : rec_inside g near e) by (eapply nth_rec; [apply H|eauto]).
      apply relax_unstable_body_cell_kept; auto.
    - apply nth_error_None in E. destruct H as [_ H]. lia.
  Qed.

  Lemma relax_body_soil_safe s : inv s ->
    safe (relax_body_soil frame g dh_max tol s) inv.
  Proof.
    intros H. unfold relax_body_soil.
    set (n := length (records s)). eapply safe_bind.
    - apply (for_each_safe _ (fun '(s', pend, dirs) => kept n s' /\
        Forall (rec_inside g near) pend /\ Forall unit_dir dirs)).
      + intros nn [[s' pend] dirs] Hin (H' & Hp & Hd). apply in_seq in Hin.
        unfold relax_body_record.
        destruct (nth_error (records s') nn) as [e|] eqn:E.
        2: { apply nth_error_None in E. destruct H' as [_ H']. lia. }
        assert (He : rec_inside g near e) by (eapply nth_rec; [apply H'|eauto]).
        destruct (fltb _ _); cbn [safe]; auto.
        match goal with |- context [shuffle ?l ?r] =>
          pose proof (shuffle_forall unit_dir l r Hd) as Hd'; destruct (shuffle l r) as [d' r2] end.
        cbn [fst] in Hd'. eapply safe_bind.
        * apply (for_each_safe _ (fun '(s2, pend2) => kept n s2 /\
            Forall (rec_inside g near) pend2)); [|split; auto].
          intros d [s2 pend2] Id [H2 Hp2].
          destruct He as (Hk & Hi & Hj & _).
          apply relax_body_dir_safe; auto; [lia|split; auto|].
          rewrite Forall_forall in Hd'. auto.
        * intros [s2 pend2] [H2 Hp2]. cbn [safe]. auto.
      + split; [split; auto|]. split; [constructor|apply directions4_unit].
    - intros [[s' pend] dirs] ([H' _] & Hp & _). cbn [safe].
      apply inv_records; [apply Forall_app; split; [apply H'|auto]|exact H'].
  Qed.

  (** *** Moving the soil with the body *)
  Variable relocate : Pos A -> outcome (reloc A).
  Hypothesis Hreloc : forall x, near x -> exists r, relocate x = Ok r /\
    1 <= r_i r <= 2 * half_x g - 1 /\ 1 <= r_j r <= 2 * half_y g - 1.

  Lemma exploration_unit (r : reloc A) : Forall unit_dir (exploration r).
  Proof.
    unfold exploration, unit_dir. cbv zeta.
    destruct (r_xmain r), (r_sx r), (r_sy r); repeat constructor; cbn; lia.
  Qed.

  Notation far := (f_of_Z (n := A) (2 * half_z g)).

  Definition wall_at (s : sim) (c : Z * Z * Z) : Prop :=
    let '(i, j, k) := c in (k = 0 \/ k = 2) /\ interior i j.

  Definition best_ok (s : sim) (b : best_t) : Prop :=
    match fst b with
    | None => snd b = far
    | Some (i, j, ks) => wall_at s (i, j, ks - 1)
    end.

  Lemma try_layer_safe s k i j z b : inv s -> k = 0 \/ k = 2 -> inb s i j = true ->
    best_ok s b ->
    let '(hit, b') := try_layer g tol s k i j z b in
    best_ok s b' /\ (hit = true -> wall_at s (i, j, k)).
  Proof.
    intros H Hk Hi Hb. unfold try_layer. cbv zeta.
    destruct (body_present s k i j) eqn:E; [|split; auto; discriminate].
    destruct (present_interior s k i j H Hk Hi E) as [Ii _].
    destruct (fltb _ (fadd _ _)); [split; cbn; auto|].
    destruct (fltb _ _); (split; [|discriminate]); auto.
    unfold best_ok, wall_at. cbn. replace (k + 1 - 1) with k by ring. auto.
  Qed.

  Lemma find_wall_safe s r dirs : forall b,
    inv s -> interior (r_i r) (r_j r) -> Forall unit_dir dirs -> best_ok s b ->
    safe (find_wall g tol s r dirs b)
      (fun '(hit, b') => best_ok s b' /\
         match hit with Some c => wall_at s c | None => True end).
  Proof.
    induction dirs as [|d dirs IH]; intros b H Ii Hd Hb; cbn [find_wall safe]; auto.
    inversion Hd as [|? ? [Dx Dy] Hd']; subst.
    assert (Hc : inb s (r_i r + fst d) (r_j r + snd d) = true).
    { eapply inb_next; eauto; lia. }
    apply safe_guard; auto.
    generalize (try_layer_safe s 0 (r_i r + fst d) (r_j r + snd d) (r_z r) b H
      ltac:(auto) Hc Hb).
    destruct (try_layer g tol s 0 _ _ _ _) as [hit b']. intros [Hb' Hh].
    destruct hit; cbn [safe]; auto.
    generalize (try_layer_safe s 2 (r_i r + fst d) (r_j r + snd d) (r_z r) b' H
      ltac:(auto) Hc Hb').
    destruct (try_layer g tol s 2 _ _ _ _) as [hit b2]. intros [Hb2 Hh2].
    destruct hit; cbn [safe]; auto.
  Qed.

  Lemma drop_on_inv s k i j pos h : inv s -> wall_at s (i, j, k) -> near pos ->
    inv (drop_on s k i j pos h).
  Proof.
    intros H [Hk [Hi Hj]] Hn. unfold drop_on. cbv zeta. apply inv_push; [|keep].
    repeat split; cbn; auto; lia.
  Qed.

  Lemma update_record_safe e s : inv s -> rec_inside g near e ->
    safe (update_record g tol relocate e s) inv.
  Proof.
    intros H (Hk & Hi & Hj & Hn). unfold update_record.
    destruct (f_below _ _); cbn [safe]; auto. cbv zeta.
    destruct (Hreloc _ Hn) as (r & -> & Ri & Rj). cbn [bind].
    assert (Ii : interior (r_i r) (r_j r)) by (split; auto).
    eapply safe_bind.
    - apply find_wall_safe; auto; [apply exploration_unit|]. cbn. reflexivity.
    - intros [hit b] [Hb Hh]. destruct hit as [[[i j] k]|].
      + cbn [safe]. apply drop_on_inv; auto.
      + destruct (feqb (snd b) far) eqn:E; cbn [negb].
        * apply safe_guard; [eapply inb_interior; eauto|]. cbn [safe]. keep.
        * unfold best_ok in Hb. destruct (fst b) as [[[i j] ks]|].
          -- cbn [safe]. apply drop_on_inv; auto.
          -- rewrite Hb in E. destruct Harith as (_ & _ & F). rewrite F in E. discriminate.
  Qed.

  Lemma update_body_soil_safe s : inv s ->
    safe (update_body_soil g tol relocate s) inv.
  Proof.
    intros H. unfold update_body_soil. cbv zeta.
    assert (Hr : Forall (rec_inside g near) (records s)) by apply H.
    rewrite Forall_forall in Hr. eapply safe_bind.
    - apply (for_each_safe _ inv); auto. intros e s' Ie H'.
      destruct (Hr e Ie) as (Hk & Hi & Hj & _). unfold reset_record. apply safe_guard.
      + rewrite (layer_ok_in _ Hk). eapply inb_interior; [exact H'|split; auto].
      + cbn [safe]. keep.
    - intros s' H'. apply (for_each_safe _ inv).
      + intros e s2 Ie H2. apply update_record_safe; auto.
      + apply inv_records; auto.
  Qed.
  End Frame.

  (** *** The new position of the body *)
  (** The body layers of the cell do not exist. *)
  Lemma zero_absent (s : sim) k i j :
    body s k i j = f0 -> body s (k + 1) i j = f0 -> body_present s k i j = false.
  Proof.
    intros E1 E2. unfold body_present. rewrite E1, E2, (proj1 Harith). reflexivity.
  Qed.

  (** Everything but the body. *)
  Definition rest_ok (s : sim) : Prop :=
    (nx s = 2 * half_x g + 1 /\ ny s = 2 * half_y g + 1) /\
    off_border g (relax_area s) /\ Forall (rec_inside g near) (records s).

  Definition body_in (l : list (Z * Z)) (s : sim) : Prop :=
    forall k i j, k = 0 \/ k = 2 -> inb s i j = true -> body_present s k i j = true ->
      In (i, j) l.

  Lemma clear_body_safe s : rest_ok s -> off_border g (body_area s) ->
    (forall k i j, k = 0 \/ k = 2 -> inb s i j = true -> body_present s k i j = true ->
       in_area (body_area s) i j) ->
    safe (clear_body s) (fun s' => rest_ok s' /\ body_in [] s' /\ records s' = records s).
  Proof.
    intros H Ha Hb. unfold clear_body.
    set (I := fun (l : list (Z * Z)) s' =>
      rest_ok s' /\ body_in l s' /\ records s' = records s).
    assert (Q : forall l, (forall i j, In (i, j) l -> interior i j) ->
      forall s', I l s' ->
      safe (for_each l (fun c s => let '(i, j) := c in guard (inb s i j)
         (Ok (set_b (set_b (set_b (set_b s 0 i j f0) 1 i j f0) 2 i j f0) 3 i j f0))) s')
        (I [])).
    { induction l as [|[i j] l IH]; intros Hl s' Hs'; [exact Hs'|].
      cbn [for_each]. destruct Hs' as (Hr & Hbi & El).
      assert (Ii : interior i j) by (apply Hl; left; auto).
      destruct Hr as ((Nx & Ny) & Hr).
      assert (Hin : inb s' i j = true).
      { destruct Ii. unfold inb. rewrite Nx, Ny.
        repeat (apply andb_true_iff; split); rewrite ?Z.leb_le, ?Z.ltb_lt; lia. }
      rewrite Hin. cbn [guard bind]. apply IH; [intros; apply Hl; right; auto|].
      split; [split; [split; auto|auto]|]. split; [|exact El].
      intros k i' j' Hk Hi' Hp.
      assert (D : (i, j) = (i', j') \/ (i, j) <> (i', j')).
      { destruct (Z.eq_dec i i'), (Z.eq_dec j j'); (left; congruence) || (right; congruence). }
      destruct D as [E|E].
      - exfalso. injection E as -> ->. rewrite zero_absent in Hp; [discriminate| |];
          destruct Hk as [->| ->]; cbn; unfold upd3; cbn; rewrite ?Z.eqb_refl; reflexivity.
      - assert (B : forall k', body (set_b (set_b (set_b (set_b s' 0 i j f0) 1 i j f0)
            2 i j f0) 3 i j f0) k' i' j' = body s' k' i' j').
        { intros k'. cbn. unfold upd3.
          destruct (Z.eqb_spec i' i), (Z.eqb_spec j' j); rewrite ?andb_false_r; auto.
          exfalso; apply E; congruence. }
        unfold body_present in Hp. rewrite !B in Hp.
        destruct (Hbi k i' j' Hk Hi' Hp) as [E'|]; auto. exfalso. auto. }
    apply Q.
    - intros i j Hin. apply in_area_cells in Hin. eapply in_area_interior; eauto.
    - split; auto. split; auto. intros k i j Hk Hi Hp. apply in_area_cells. eauto.
  Qed.

  Section Raster.
  Ltac cases :=
    repeat match goal with
    | |- context [if ?b then _ else _] =>
        lazymatch b with context [if _ then _ else _] => fail | _ => destruct b eqn:? end
    end.

  Variable frame : Z -> Z -> F A -> Pos A.
  Notation inv := (inv frame).

  (** Writing on layer [k] of a cell of the area, with a top that may be recorded. *)
  Lemma inv_layer s k i j s' :
    inv s -> k = 0 \/ k = 2 -> in_area (body_area s) i j ->
    nx s' = nx s -> ny s' = ny s -> body_area s' = body_area s ->
    relax_area s' = relax_area s -> records s' = records s ->
    (forall k' i' j', ~ (i' = i /\ j' = j) -> body s' k' i' j' = body s k' i' j') ->
    (forall k', k' = 0 \/ k' = 2 -> body_present s' k' i j = true ->
       near (frame i j (body s' (k' + 1) i j))) ->
    inv s'.
  Proof.
    intros ((Nx & Ny) & Ha & Hr & Hb & Hl) Hk Hi Ex Ey Ea Er El Eb Hn.
    split; [split; congruence|]. rewrite Ea, Er, El.
    split; [exact Ha|]. split; [exact Hr|]. split; [|exact Hl].
    intros k' i' j' Hk' Hi' Hp.
    assert (D : (i' = i /\ j' = j) \/ ~ (i' = i /\ j' = j)) by lia.
    destruct D as [[-> ->]|D].
    - rewrite Ea. split; auto.
    - unfold body_present in Hp. rewrite !(Eb _ i' j' D) in *. rewrite Ea.
      apply Hb; auto. unfold inb in *. rewrite <- Ex, <- Ey. exact Hi'.
  Qed.

  Lemma fmax_or (a b : F A) : fmax a b = a \/ fmax a b = b.
  Proof. unfold fmax. destruct (fltb a b); auto. Qed.

  Lemma include_safe s i j min_h max_h :
    inv s -> in_area (body_area s) i j -> near (frame i j max_h) ->
    safe (include_new_body_pos tol s i j min_h max_h)
      (fun s' => inv s' /\ body_area s' = body_area s /\ records s' = records s).
  Proof.
    intros H Hi Hn. unfold include_new_body_pos.
    assert (Ii : interior i j) by (destruct H as (_ & Ha & _); eapply in_area_interior; eauto).
    assert (Hin : inb s i j = true) by (eapply inb_interior; eauto).
    apply safe_guard; auto. cbv zeta.
    assert (Old : forall k, k = 0 \/ k = 2 -> body_present s k i j = true ->
      near (frame i j (body s (k + 1) i j))).
    { intros k Hk Hp. eapply present_interior; eauto. }
    assert (L : forall k, match layer_status tol s k i j min_h max_h with
      | None => True | Some st => st = 0 \/ body_present s k i j = true end).
    { intros k. unfold layer_status. cbv zeta. rewrite absent_present.
      destruct (body_present s k i j); cbn [negb]; auto.
      destruct (_ && _); auto. destruct (_ && _); auto. destruct (_ && _); auto. }
    generalize (L 0) (L 2).
    destruct (layer_status tol s 0 i j min_h max_h) as [st0|]; [|cbn [safe]; auto].
    destruct (layer_status tol s 2 i j min_h max_h) as [st1|]; [|cbn [safe]; auto].
    intros L0 L2. cbn [safe].
    assert (Max : forall a b, near (frame i j a) -> near (frame i j b) ->
      near (frame i j (fmax a b))).
    { intros a b Na Nb. destruct (fmax_or a b) as [->| ->]; auto. }
    assert (Fin : forall s', nx s' = nx s -> ny s' = ny s -> body_area s' = body_area s ->
      relax_area s' = relax_area s -> records s' = records s ->
      (forall k' i' j', ~ (i' = i /\ j' = j) -> body s' k' i' j' = body s k' i' j') ->
      (forall k', k' = 0 \/ k' = 2 -> body_present s' k' i j = true ->
         near (frame i j (body s' (k' + 1) i j))) ->
      inv s' /\ body_area s' = body_area s /\ records s' = records s).
    { intros s' Ex Ey Ea Er El Eb Hb. split; auto.
      eapply (inv_layer s 0 i j s'); eauto. }
    assert (Else : forall k i' j' i j, ~ (i' = i /\ j' = j) ->
      forall k', ((k' =? k) && (i' =? i) && (j' =? j)) = false).
    { intros k i' j' i0 j0 D k'. destruct (Z.eqb_spec i' i0), (Z.eqb_spec j' j0);
        rewrite ?andb_false_r; auto. exfalso; auto. }
    assert (P0 : st0 =? 0 = false -> near (frame i j (body s 1 i j))).
    { intros E. apply Z.eqb_neq in E. apply (Old 0); auto. destruct L0; tauto. }
    assert (P2 : st1 =? 0 = false -> near (frame i j (body s 3 i j))).
    { intros E. apply Z.eqb_neq in E. apply (Old 2); auto. destruct L2; tauto. }
    cbv zeta. cases; apply Fin; try reflexivity;
      try (intros k' i' j' D; cbn; unfold upd3; rewrite !(Else _ _ _ _ _ D); reflexivity);
      intros k' [->| ->]; intros Hp; cbn; unfold upd3; cbn; rewrite ?Z.eqb_refl; cbn;
      auto;
      try (apply Old; auto; fail).
    all: try (apply Max; auto; apply Max; auto).
    all: repeat match goal with
      | E : (_ && _) = true |- _ => apply andb_true_iff in E as [? ?]
      | E : (?x =? 1) = true |- _ => apply Z.eqb_eq in E; subst x
      end; auto.
    exfalso. rewrite zero_absent in Hp; [discriminate| |];
      cbn; unfold upd3; cbn; rewrite !Z.eqb_refl; reflexivity.
  Qed.

  (** The cells of a wall. *)
  Definition cell_ok (a : area) (c : cell3) : Prop :=
    let '(i, j, k) := c in
    in_area a i j /\ 0 <= k <= 2 * half_z g /\ near (frame i j (d_to_f (vect_z g k))).

  Lemma z_ok_in k : 0 <= k <= 2 * half_z g -> z_ok g k = true.
  Proof. intros H. unfold z_ok. apply andb_true_iff. rewrite Z.leb_le, Z.ltb_lt. lia. Qed.

  Lemma update_body_loop_safe a l : Forall (cell_ok a) l -> forall s i j min_h max_h,
    inv s -> body_area s = a -> in_area a i j -> near (frame i j max_h) ->
    safe (update_body_loop g tol l s i j min_h max_h) (fun s' => inv s' /\ body_area s' = a /\ records s' = records s).
  Proof.
    induction l as [|[[i' j'] k] l IH]; intros Hl s i j min_h max_h H Ea Hi Hn;
      cbn [update_body_loop].
    - eapply safe_weaken; [apply include_safe; auto; rewrite Ea; auto|].
      cbv beta. intros s' (? & ? & ?); split; [assumption|split; congruence].
    - pose proof (Forall_inv Hl) as (Ci & Ck & Cn). apply Forall_inv_tail in Hl as Hl'. subst a.
      destruct (negb (i =? i') || negb (j =? j')) eqn:E.
      + eapply safe_bind; [apply include_safe; auto|].
        cbv beta. intros s' (H' & Ea' & El'). apply safe_guard; [apply z_ok_in; auto|].
        rewrite <- El'. apply IH; auto.
      + apply safe_guard; [apply z_ok_in; auto|]. apply IH; auto.
        apply orb_false_iff in E as [E1 E2]. apply negb_false_iff, Z.eqb_eq in E1, E2.
        subst. exact Cn.
  Qed.

  Lemma insert3_in x l c : In c (insert3 x l) <-> c = x \/ In c l.
  Proof.
    induction l as [|y l IH]; cbn [insert3 In]; [intuition congruence|].
    destruct (cell3_leb x y); cbn [In]; rewrite ?IH; intuition congruence.
  Qed.

  Lemma sort3_in l c : In c (sort3 l) <-> In c l.
  Proof.
    induction l as [|x l IH]; cbn [sort3 In]; [tauto|]. rewrite insert3_in, IH.
    intuition congruence.
  Qed.

  Lemma update_body_safe a l s : l <> [] -> Forall (cell_ok a) l ->
    inv s -> body_area s = a ->
    safe (update_body g tol l s) (fun s' => inv s' /\ body_area s' = a /\ records s' = records s).
  Proof.
    intros Hne Hl H Ea. unfold update_body. destruct l as [|[[i j] k] l]; [congruence|].
    pose proof (Forall_inv Hl) as (Ci & Ck & Cn).
    apply safe_guard; [apply z_ok_in; auto|]. apply update_body_loop_safe; auto.
  Qed.

  Lemma calc_body_pos_safe a walls s : rest_ok s -> off_border g (body_area s) ->
    (forall k i j, k = 0 \/ k = 2 -> inb s i j = true -> body_present s k i j = true ->
       in_area (body_area s) i j) ->
    off_border g a -> (forall w, In w walls -> w <> []) ->
    (forall w i j k, In w walls -> In (i, j, k) w -> cell_ok a (i, j, k)) ->
    safe (calc_body_pos g tol a walls s) (fun s' => inv s' /\ records s' = records s).
  Proof.
    intros Hr Hb Hs Ha Hne Hw. unfold calc_body_pos. eapply safe_bind.
    { apply clear_body_safe; auto. }
    cbv beta. intros s' ((N & R & L) & B & El).
    eapply safe_weaken with
      (P := fun s' => inv s' /\ body_area s' = a /\ records s' = records s);
      [|intros ? (? & ? & ?); auto].
    apply for_each_safe.
    - intros w s2 Iw (H2 & Ea2 & El2). rewrite <- El2. apply update_body_safe; auto.
      + specialize (Hne w Iw). destruct w as [|c w]; [exfalso; apply Hne; reflexivity|]. intros E.
        assert (F : In c (sort3 (c :: w))) by (apply sort3_in; left; auto).
        rewrite E in F; destruct F.
      + apply Forall_forall. intros [[i j] k] Ic. apply (proj1 (sort3_in _ _)) in Ic. exact (Hw w i j k Iw Ic).
    - split; [|split; [reflexivity|exact El]]. split; [exact N|]. split; [exact Ha|]. split; [exact R|].
      split; [|exact L]. intros k i j Hk Hi Hp. destruct (B k i j Hk Hi Hp).
  Qed.
  End Raster.

  (** *** The step *)
  Section Step.
  Variable G : geom A.
  Variable legal : pose G -> Prop.
  Hypothesis Hposes : poses_ok g G legal near.

  Lemma shuffle_records_inv frame s : inv frame s -> inv frame (shuffle_records s).
  Proof.
    intros H. unfold shuffle_records.
    assert (Hl : Forall (rec_inside g near) (records s)) by apply H.
    pose proof (shuffle_forall _ _ (rng s) Hl) as Hs.
    destruct (shuffle (records s) (rng s)) as [l r]. cbn [fst] in Hs.
    apply inv_rng, inv_records; auto.
  Qed.

  Lemma relax_loop_safe p n : forall s, inv (g_frame G p) s ->
    safe (relax_loop G g P p n s) (inv (g_frame G p)).
  Proof.
    induction n as [|n IH]; intros s H; cbn [relax_loop]; [exact H|].
    destruct (equilibrium s); [exact H|].
    eapply safe_bind; [|exact IH]. unfold relax_round. cbv zeta. eapply safe_bind.
    - apply relax_terrain_safe; [exact H|].
      destruct H as (_ & (Hb1 & Hb2 & Hb3 & Hb4) & (Hr1 & Hr2 & Hr3 & Hr4) & _).
      unfold update_impact_area, off_border. cbn. lia.
    - intros s' H'. apply relax_body_soil_safe. apply shuffle_records_inv; auto.
  Qed.

  Theorem step_safe fuel p w : memory_ok g G legal near w -> legal p ->
    safe (step G g P fuel p w) (fun '(w', _) => memory_ok g G legal near w').
  Proof.
    destruct w as [s old]. intros Hm Lp. unfold step.
    destruct (g_moved G old p) as [mv far].
    set (s1 := if far then warn s WLargeMove else s).
    assert (Hm1 : memory_ok g G legal near (s1, old)) by (unfold s1; destruct far; exact Hm).
    clearbody s1. clear Hm. destruct mv; cbn [negb]; [|exact Hm1].
    destruct (proj1 Hposes p Lp) as (a & walls & -> & Ha & Hne & Hw). cbn [bind].
    destruct Hm1 as (Nx & Ny & Hb & Hr & Hs & Hl & Hold).
    eapply safe_bind.
    { apply (calc_body_pos_safe (g_frame G p)); auto. split; [split; assumption|split; assumption]. }
    cbv beta. intros s2 [H2 El2]. eapply safe_bind with (P := inv (g_frame G p)).
    { destruct Hold as [Hnil|Hleg].
      - unfold update_body_soil. cbv zeta. rewrite El2, Hnil. cbn [for_each bind safe].
        apply inv_records; auto.
      - apply update_body_soil_safe; auto. intros x Hx.
        exact (proj2 Hposes old p x Hleg Lp Hx). }
    intros s3 H3. eapply safe_bind; [apply move_intersecting_cells_safe; exact H3|].
    intros s4 H4. cbv zeta. eapply safe_bind; [apply relax_loop_safe; exact H4|].
    intros s5 ((Nx5 & Ny5) & Hb5 & Hr5 & Hs5 & Hl5). cbn [safe].
    split; [exact Nx5|]. split; [exact Ny5|]. split; [exact Hb5|]. split; [exact Hr5|].
    split; [|split; [exact Hl5|right; exact Lp]].
    intros k i j Hk Hi Hp. exact (proj1 (Hs5 k i j Hk Hi Hp)).
  Qed.

  Theorem run_safe fuel ps : Forall legal ps -> forall w, memory_ok g G legal near w ->
    safe (run G g P fuel ps w) (memory_ok g G legal near).
  Proof.
    induction ps as [|p ps IH]; intros Hp w Hw; cbn [run]; [exact Hw|].
    inversion Hp; subst. eapply safe_bind; [apply step_safe; eauto|].
    intros [w' b] H'. auto.
  Qed.

  (** The constructor of SimOut and Init. *)
  Lemma init_terrain_memory noise s old :
    memory_ok g G legal near (s, old) -> memory_ok g G legal near (init_terrain g noise s, old).
  Proof.
    unfold init_terrain. generalize (all_cells s). intros l. revert s.
    induction l as [|c l IH]; intros s H; cbn [fold_left]; auto.
  Qed.

  Theorem init_memory r l old noise :
    memory_ok g G legal near (init g noise (new_sim g r l), old).
  Proof.
    destruct Hsize as (Sx & Sy & _).
    unfold init. destruct (perm_table _) as [tb r']. apply init_terrain_memory.
    cbn. split; [reflexivity|]. split; [reflexivity|]. unfold off_border. cbn.
    split; [lia|]. split; [lia|]. split; [|split; [constructor|left; reflexivity]].
    intros k i j _ _ Hp. unfold body_present in Hp. cbn in Hp.
    rewrite (proj1 Harith) in Hp. discriminate.
  Qed.
  End Step.
End Safe.
