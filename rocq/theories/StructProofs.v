(** Structural properties, for every arithmetic of heights: what the functions do
    not touch, and the shape of the loop of Step. *)
From Coq Require Import ZArith List Bool Lia Permutation.
From Verif Require Import Outcome Num State Base ModelRelax ModelIntersect
  ModelBodySoil ModelBodyPos ModelUtils ModelStep.
Import ListNotations.
Open Scope Z_scope.

Section Struct.
  Context {A : Num}.
  Local Notation sim := (sim A).

  (** Only heights of cells in [S] may differ; the body and its area, the
      dimensions and the impact area do not change. *)
  Definition only_in (S : Z -> Z -> Prop) (s s' : sim) : Prop :=
    nx s' = nx s /\ ny s' = ny s /\ body s' = body s /\ body_area s' = body_area s /\
    impact_area s' = impact_area s /\
    forall i j, ~ S i j ->
      terrain s' i j = terrain s i j /\
      forall k, body_soil s' k i j = body_soil s k i j.

  Lemma only_in_refl S s : only_in S s s.
  Proof. repeat split. Qed.

  Lemma only_in_trans S s1 s2 s3 : only_in S s1 s2 -> only_in S s2 s3 -> only_in S s1 s3.
  Proof.
    intros (A1 & A2 & A3 & A4 & A5 & A6) (B1 & B2 & B3 & B4 & B5 & B6).
    do 5 (split; [congruence|]). intros i j N.
    destruct (A6 i j N) as [A7 A8], (B6 i j N) as [B7 B8].
    split; [congruence|]. intros k. rewrite B8. apply A8.
  Qed.

  Lemma only_in_weaken (S S' : Z -> Z -> Prop) s s' :
    (forall i j, S i j -> S' i j) -> only_in S s s' -> only_in S' s s'.
  Proof.
    intros H (A1 & A2 & A3 & A4 & A5 & A6). do 5 (split; [auto|]).
    intros i j N. apply A6. intros Q. apply N, H, Q.
  Qed.

  Section Setters.
    Variable S : Z -> Z -> Prop.
    Lemma only_in_t s s' i j v : S i j -> only_in S s s' -> only_in S s (set_t s' i j v).
    Proof.
      intros Hs (A1 & A2 & A3 & A4 & A5 & A6). do 5 (split; [auto|]).
      intros i' j' N. destruct (A6 i' j' N) as [A7 A8]. split; [|exact A8].
      cbn. unfold upd2.
      destruct (Z.eqb_spec i' i); [subst|exact A7].
      destruct (Z.eqb_spec j' j); [subst|exact A7]. contradiction.
    Qed.
    Lemma only_in_bs s s' k i j v : S i j -> only_in S s s' -> only_in S s (set_bs s' k i j v).
    Proof.
      intros Hs (A1 & A2 & A3 & A4 & A5 & A6). do 5 (split; [auto|]).
      intros i' j' N. destruct (A6 i' j' N) as [A7 A8]. split; [exact A7|].
      intros k'. cbn. unfold upd3.
      destruct (Z.eqb_spec k' k); cbn [andb]; [|apply A8].
      destruct (Z.eqb_spec i' i); [subst|apply A8].
      destruct (Z.eqb_spec j' j); [subst|apply A8]. contradiction.
    Qed.
    Lemma only_in_records s s' l : only_in S s s' -> only_in S s (set_records s' l).
    Proof. exact (fun H => H). Qed.
    Lemma only_in_rng s s' r : only_in S s s' -> only_in S s (set_rng s' r).
    Proof. exact (fun H => H). Qed.
    Lemma only_in_equilibrium s s' b : only_in S s s' -> only_in S s (set_equilibrium s' b).
    Proof. exact (fun H => H). Qed.
    Lemma only_in_relax_area s s' a : only_in S s s' -> only_in S s (set_relax_area s' a).
    Proof. exact (fun H => H). Qed.
    Lemma only_in_warn s s' w : only_in S s s' -> only_in S s (warn s' w).
    Proof. exact (fun H => H). Qed.
    Lemma only_in_push s s' e : only_in S s s' -> only_in S s (push_record s' e).
    Proof. exact (fun H => H). Qed.
    Lemma only_in_record_h s s' nn e h : only_in S s s' -> only_in S s (set_record_h s' nn e h).
    Proof. exact (fun H => H). Qed.
  End Setters.

  Ltac oi :=
    repeat first
      [ assumption | apply only_in_refl
      | apply only_in_records | apply only_in_rng | apply only_in_equilibrium
      | apply only_in_push | apply only_in_record_h | apply only_in_relax_area
      | apply only_in_warn
      | apply only_in_t | apply only_in_bs ].

  (** Case analysis on every test of the goal. *)
  Ltac cases :=
    repeat match goal with
    | |- context [if ?b then _ else _] =>
        lazymatch b with context [if _ then _ else _] => fail | _ => destruct b end
    end.

  Variable frame : Z -> Z -> F A -> Pos A.
  Variable g : grid_t A.
  Variables dh_max tol : F A.
  Variable cell_buffer : Z.

  Lemma relax_unstable_terrain_cell_only (S : Z -> Z -> Prop) s st i j ic jc :
    S i j -> S ic jc ->
    partial (relax_unstable_terrain_cell frame g dh_max tol s st i j ic jc)
      (fun s' => only_in S s s').
  Proof.
    intros H Hc. unfold relax_unstable_terrain_cell, terrain_onto_body_soil, terrain_onto_body.
    cbv zeta. cases; cbn [bind partial]; cases; cbn [partial]; auto; oi.
  Qed.

  Lemma relax_terrain_dir_only (S : Z -> Z -> Prop) i j d s :
    S i j -> S (i + fst d) (j + snd d) ->
    partial (relax_terrain_dir frame g dh_max tol i j d s) (fun s' => only_in S s s').
  Proof.
    intros H Hc. unfold relax_terrain_dir. cbv zeta. apply partial_guard. intros _.
    destruct (_ =? 0); [apply only_in_refl|].
    eapply partial_weaken; [apply relax_unstable_terrain_cell_only; eauto|].
    cbv beta. intros s' Q. exact Q.
  Qed.

  (** The cells of the impact area and their four neighbours. *)
  Definition around (a : area) (i j : Z) : Prop :=
    in_area a i j \/ in_area a (i - 1) j \/ in_area a (i + 1) j \/
    in_area a i (j - 1) \/ in_area a i (j + 1).

  Lemma around_dir a i j d :
    In d directions4 -> in_area a i j -> around a (i + fst d) (j + snd d).
  Proof.
    intros Hd H. unfold around, in_area in *.
    destruct Hd as [<-|[<-|[<-|[<-|[]]]]]; cbn [fst snd]; lia.
  Qed.

  Lemma locate_in (s : sim) :
    partial (locate_unstable_terrain_cell dh_max tol s)
      (fun l => forall c, In c l -> in_area (impact_area s) (fst c) (snd c)).
  Proof.
    unfold locate_unstable_terrain_cell. apply for_each_partial; [|intros c []].
    intros [i j] acc Hc H. apply in_area_cells in Hc.
    eapply partial_bind with (P := fun _ => True);
      [destruct (unstable_candidate _ _ _ _ _); cbn; auto|].
    intros b _. destruct b; cbn [partial]; [|auto].
    intros c Q. apply in_app_iff in Q as [Q|[<-|[]]]; auto.
  Qed.

  Theorem relax_terrain_only (s : sim) :
    partial (relax_terrain frame g dh_max cell_buffer tol s)
      (only_in (around (impact_area s)) s).
  Proof.
    unfold relax_terrain.
    eapply partial_bind; [apply locate_in|]. cbv beta. cbn [impact_area set_equilibrium].
    intros cells Hc. destruct cells as [|c0 cells0]; [oi|].
    destruct (shuffle (c0 :: cells0) _) as [cells r] eqn:Es.
    assert (Hin : forall c, In c cells -> in_area (impact_area s) (fst c) (snd c)).
    { intros c Q. apply Hc. eapply Permutation_in; [|exact Q].
      eapply shuffle_eq; eauto. }
    eapply partial_bind with
      (P := fun st => only_in (around (impact_area s)) s (fst (fst st)) /\
                      Permutation (snd st) directions4).
    - apply for_each_partial.
      + intros [i j] [[s1 box] dirs] Hcell [H1 H2]. cbn [fst snd] in *.
        unfold relax_terrain_cell.
        destruct (shuffle dirs (rng s1)) as [dirs' r'] eqn:Ed.
        assert (Hp : Permutation dirs' directions4)
          by (etransitivity; [eapply shuffle_eq; eauto|auto]).
        eapply partial_bind with (P := only_in (around (impact_area s)) s).
        * apply for_each_partial; [|oi]. intros d s2 Hd H3.
          eapply partial_weaken;
            [apply (relax_terrain_dir_only (around (impact_area s)))|].
          -- left. apply (Hin _ Hcell).
          -- apply around_dir; [eapply Permutation_in; [exact Hp|exact Hd]|apply (Hin _ Hcell)].
          -- cbv beta. intros s3 H4. eapply only_in_trans; eauto.
        * intros s2 H3. cbn [partial fst snd]. auto.
      + cbn [fst snd]. split; [oi|auto].
    - intros [[s1 box] dirs] [H1 _]. cbn [fst snd] in *.
      eapply partial_bind with (P := fun _ => True); [destruct (chk_int _); cbn; auto|intros xl _].
      eapply partial_bind with (P := fun _ => True); [destruct (chk_int _); cbn; auto|intros xh _].
      eapply partial_bind with (P := fun _ => True); [destruct (chk_int _); cbn; auto|intros yl _].
      eapply partial_bind with (P := fun _ => True); [destruct (chk_int _); cbn; auto|intros yh _].
      cbn [partial]. oi.
  Qed.

  (** Records and their four neighbours. *)
  Definition around_records (l : list (rec_t A)) (i j : Z) : Prop :=
    exists e, In e l /\ Z.abs (i - e_i e) + Z.abs (j - e_j e) <= 1.

  Definition same_places (l l' : list (rec_t A)) : Prop :=
    map (fun e => (e_ind e, e_i e, e_j e)) l' = map (fun e => (e_ind e, e_i e, e_j e)) l.

  Lemma same_places_list_set (l : list (rec_t A)) nn e h :
    nth_error l nn = Some e -> same_places l (list_set l nn (rec_with_h e h)).
  Proof.
    unfold same_places. revert nn. induction l as [|x l IH]; intros [|nn] H; cbn in *; auto.
    - inversion H; subst. reflexivity.
    - f_equal. apply IH; auto.
  Qed.

  Lemma relax_unstable_body_cell_only (S : Z -> Z -> Prop) s st pend nn e i j ind ic jc :
    S i j -> S ic jc -> nth_error (records s) nn = Some e ->
    only_in S s (fst (relax_unstable_body_cell frame g dh_max tol s st pend nn e i j ind ic jc)) /\
    same_places (records s)
      (records (fst (relax_unstable_body_cell frame g dh_max tol s st pend nn e i j ind ic jc))).
  Proof.
    intros H Hc Hn.
    assert (R : forall h, same_places (records s) (list_set (records s) nn (rec_with_h e h)))
      by (intros; apply same_places_list_set; auto).
    unfold relax_unstable_body_cell, body_onto_terrain, body_onto_single, body_onto_two_soil,
      body_onto_two_body, take_soil, moved. cbv zeta.
    split.
    - cases; cbn [fst snd]; oi.
    - cases; cbn [fst snd]; try reflexivity; apply R.
  Qed.

  Lemma same_places_nth (l l' : list (rec_t A)) nn e' :
    same_places l l' -> nth_error l' nn = Some e' ->
    exists e, nth_error l nn = Some e /\ e_ind e = e_ind e' /\ e_i e = e_i e' /\ e_j e = e_j e'.
  Proof.
    unfold same_places. intros H Hn.
    pose proof (map_nth_error (fun e => (e_ind e, e_i e, e_j e)) _ _ Hn) as Q.
    rewrite H in Q. rewrite nth_error_map in Q.
    destruct (nth_error l nn) as [e|]; [|discriminate]. exists e.
    inversion Q. auto.
  Qed.

  Theorem relax_body_soil_only (s : sim) :
    partial (relax_body_soil frame g dh_max tol s)
      (only_in (around_records (records s)) s).
  Proof.
    unfold relax_body_soil.
    eapply partial_bind with
      (P := fun st => (only_in (around_records (records s)) s (fst (fst st)) /\
                       same_places (records s) (records (fst (fst st)))) /\
                      Permutation (snd st) directions4).
    - apply for_each_partial.
      + intros nn [[s1 pend] dirs] _ [[H1 H2] H3]. cbn [fst snd] in *.
        unfold relax_body_record. destruct (nth_error (records s1) nn) as [e|] eqn:En; [|exact I].
        destruct (fltb _ _); [cbn [partial fst snd]; auto|].
        destruct (shuffle dirs (rng s1)) as [dirs' r'] eqn:Ed.
        assert (Hp : Permutation dirs' directions4)
          by (etransitivity; [eapply shuffle_eq; eauto|auto]).
        destruct (same_places_nth _ _ _ _ H2 En) as (e0 & E0 & Q1 & Q2 & Q3).
        apply nth_error_In in E0.
        eapply partial_bind with
          (P := fun st => only_in (around_records (records s)) s (fst st) /\
                          same_places (records s) (records (fst st))).
        * apply for_each_partial; [|cbn [fst]; split; [oi|exact H2]].
          intros d [s2 pend2] Hd [H4 H5]. cbn [fst] in *.
          unfold relax_body_dir. cbv zeta. apply partial_guard. intros _.
          destruct (check_unstable_body_cell _ _ _ _ _ _ _ _) as [st|]; [|exact I].
          destruct (nth_error (records s2) nn) as [e2|] eqn:E2; [|exact I].
          destruct (st =? 0); [cbn [partial fst]; auto|]. cbn [partial].
          destruct (relax_unstable_body_cell_only (around_records (records s))
            (set_equilibrium s2 false) st pend2 nn e2 (e_i e) (e_j e) (e_ind e)
            (e_i e + fst d) (e_j e + snd d)) as [O1 O2].
          -- exists e0. split; [auto|lia].
          -- exists e0. split; [auto|]. apply (Permutation_in _ Hp) in Hd.
             destruct Hd as [<-|[<-|[<-|[<-|[]]]]]; cbn [fst snd]; lia.
          -- exact E2.
          -- split; [eapply only_in_trans; [exact H4|exact O1]|].
             unfold same_places in *. rewrite O2. exact H5.
        * intros [s2 pend2] H4. cbn [partial fst snd] in *. auto.
      + cbn [fst snd]. split; [split; [oi|reflexivity]|auto].
    - intros [[s1 pend] dirs] [[H1 _] _]. cbn [partial fst] in *. oi.
  Qed.

  (** ** Moving the intersecting soil *)
  Definition anywhere (i j : Z) : Prop := True.

  Ltac oa := oi; exact I.

  Lemma move_body_soil_only (s : sim) w max_h i j :
    partial (move_body_soil frame tol s w max_h i j) (fun p => only_in anywhere s (fst p)).
  Proof.
    unfold move_body_soil. apply partial_guard. intros _.
    unfold move_single, move_between. cbv zeta.
    destruct (body s 0 i j <. body s 2 i j)%num.
    all: cases; cbn [partial fst]; oa.
  Qed.

  Lemma explore_only fuel : forall (s : sim) w max_h i j d pp,
    partial (explore frame tol fuel s w max_h i j d pp) (fun p => only_in anywhere s (fst p)).
  Proof.
    induction fuel as [|fuel IH]; intros; cbn [explore];
      destruct (_ && _); cbn [partial fst]; try oa.
    eapply partial_bind; [apply move_body_soil_only|].
    intros [s1 w1] H1. cbn [fst] in H1. apply partial_guard. intros _.
    eapply partial_weaken; [apply IH|]. cbv beta. intros [s2 w2] H2. cbn [fst] in *.
    eapply only_in_trans; eauto.
  Qed.

  Lemma explore_all_only fuel dirs : forall (s : sim) ind ind_t i j h,
    partial (explore_all frame tol fuel dirs s ind ind_t i j h)
      (fun p => only_in anywhere s (fst p)).
  Proof.
    induction dirs as [|d dirs IH]; intros; cbn [explore_all]; [cbn [partial fst]; oa|].
    eapply partial_bind; [apply explore_only|].
    intros [s1 w1] H1. cbn [fst] in H1. destruct (fltb _ _); [exact H1|].
    eapply partial_weaken; [apply IH|]. cbv beta. intros [s2 w2] H2. cbn [fst] in *.
    eapply only_in_trans; eauto.
  Qed.

  Lemma move_record_only fuel nn e (s : sim) dirs :
    partial (move_record frame tol fuel nn e s dirs) (fun p => only_in anywhere s (fst p)).
  Proof.
    unfold move_record. cbv zeta. apply partial_guard. intros _.
    destruct (body_absent _ _ _ _); [cbn [partial fst]; oa|].
    destruct (_ && _); [|cbn [partial fst]; oa].
    destruct (fltb (e_h e) _);
      (destruct (shuffle dirs _) as [dirs' r] eqn:Es;
       eapply partial_bind; [apply explore_all_only|];
       intros [s1 h1] H1; cbn [fst] in H1;
       assert (H2 : only_in anywhere s s1)
         by (eapply only_in_trans; [|exact H1]; oa);
       destruct (fltb tol h1); cbn [partial fst]; oa).
  Qed.

  Lemma move_records_only fuel wf : forall nn (s : sim) dirs,
    partial (move_records frame tol fuel wf nn s dirs) (only_in anywhere s).
  Proof.
    induction fuel as [|fuel IH]; intros; cbn [move_records];
      (destruct (nth_error _ _); [|cbn [partial]; oa]); [exact I|].
    eapply partial_bind; [apply move_record_only|].
    intros [s1 d1] H1. cbn [fst] in H1.
    eapply partial_weaken; [apply IH|]. cbv beta. intros s2 H2.
    eapply only_in_trans; eauto.
  Qed.

  Lemma spread_ring_only dirs : forall (s : sim) i j pp h,
    partial (spread_ring tol dirs s i j pp h) (fun p => only_in anywhere s (fst p)).
  Proof.
    induction dirs as [|d dirs IH]; intros; cbn [spread_ring]; [cbn [partial fst]; oa|].
    apply partial_guard. intros _. cbv zeta.
    destruct (_ && _); [cbn [partial fst]; oa|].
    destruct (fltb (fadd _ tol) _); [|apply IH].
    destruct (fltb _ h); [|cbn [partial fst]; oa].
    eapply partial_weaken; [apply IH|]. cbv beta. intros [s2 h2] H2. cbn [fst] in *.
    eapply only_in_trans; [|exact H2]. oa.
  Qed.

  Lemma spread_only fuel : forall dirs (s : sim) i j pp h,
    partial (spread tol fuel dirs s i j pp h) (only_in anywhere s).
  Proof.
    induction fuel as [|fuel IH]; intros; cbn [spread];
      (destruct (fltb tol h); [|cbn [partial]; oa]); [exact I|].
    eapply partial_bind; [apply spread_ring_only|].
    intros [s1 h1] H1. cbn [fst] in H1.
    eapply partial_weaken; [apply IH|]. cbv beta. intros s2 H2.
    eapply only_in_trans; eauto.
  Qed.

  Theorem move_intersecting_cells_only fuel (s : sim) :
    partial (move_intersecting_cells frame tol fuel s) (only_in anywhere s).
  Proof.
    unfold move_intersecting_cells, move_intersecting_body_soil.
    eapply partial_bind; [apply move_records_only|]. intros s1 H1.
    unfold move_intersecting_body.
    eapply partial_bind with (P := fun _ => True);
      [destruct (locate_intersecting_cells _ _); cbn; auto|]. intros cells _.
    eapply partial_bind with (P := fun p => only_in anywhere s (fst p)).
    - apply for_each_partial; [|exact H1].
      intros [[ind i] j] [s2 dirs] _ H2. cbn [fst] in H2. unfold move_terrain_cell.
      destruct (fltb _ _); [exact H2|].
      destruct (shuffle dirs _) as [dirs' r].
      eapply partial_bind; [apply spread_only|]. intros s3 H3. cbn [partial fst].
      apply only_in_t; [exact I|]. eapply only_in_trans; [|exact H3]. oa.
    - intros [s2 d2] H2. exact H2.
  Qed.
End Struct.

(** ** The loop of Step *)
Section Loop.
  Context {A : Num}.
  Variable G : geom A.
  Variable g : grid_t A.
  Variable P : params A.
  Local Notation sim := (sim A).

  (** [n] rounds in a row, none of which starts at equilibrium. *)
  Inductive rounds (p : pose G) : nat -> sim -> sim -> Prop :=
  | rounds_0 s : rounds p 0 s s
  | rounds_S n s s1 s2 :
      equilibrium s = false -> relax_round G g P p s = Ok s1 ->
      rounds p n s1 s2 -> rounds p (S n) s s2.

  Theorem relax_loop_rounds p n : forall s s',
    relax_loop G g P p n s = Ok s' <->
    exists k, (k <= n)%nat /\ rounds p k s s' /\ (k = n \/ equilibrium s' = true).
  Proof.
    induction n as [|n IH]; intros s s'; cbn [relax_loop].
    - split.
      + intros H; inversion H; subst. exists 0%nat. split; [lia|]. split; [constructor|auto].
      + intros (k & Hk & R & _). assert (k = 0)%nat by lia. subst. inversion R; auto.
    - destruct (equilibrium s) eqn:E.
      + split.
        * intros H; inversion H; subst. exists 0%nat. split; [lia|]. split; [constructor|auto].
        * intros (k & Hk & R & _). inversion R; subst; [auto|congruence].
      + split.
        * intros H. apply bind_ok in H as (s1 & H1 & H2). apply IH in H2 as (k & Hk & R & Q).
          exists (S k). split; [lia|]. split; [econstructor; eauto|].
          destruct Q; [left; lia|auto].
        * intros (k & Hk & R & Q). inversion R as [|k' ? s1 ? E' R1 R2]; subst.
          -- destruct Q as [Q|Q]; [lia|congruence].
          -- rewrite R1. cbn [bind]. apply IH. exists k'. split; [lia|]. split; [auto|].
             destruct Q; [left; lia|auto].
  Qed.

  (** Step without movement. *)
  Theorem step_still fuel p s old :
    g_moved G old p = (false, false) -> step G g P fuel p (s, old) = Ok ((s, old), false).
  Proof. intros H. unfold step. rewrite H. reflexivity. Qed.

  Theorem step_result fuel p s old w' b :
    step G g P fuel p (s, old) = Ok (w', b) ->
    b = fst (g_moved G old p) /\ snd w' = if b then p else old.
  Proof.
    unfold step. destruct (g_moved G old p) as [m f]. cbn [fst]. intros H.
    destruct m; cbn [negb] in H; [|inversion H; subst; auto].
    repeat (apply bind_ok in H as (? & ? & H); try (destruct x; idtac)).
    all: inversion H; subst; auto.
  Qed.

  Theorem run_still fuel ps : forall s old,
    (forall p, In p ps -> g_moved G old p = (false, false)) ->
    run G g P fuel ps (s, old) = Ok (s, old).
  Proof.
    induction ps as [|p ps IH]; intros s old H; cbn [run]; [reflexivity|].
    rewrite step_still by (apply H; left; auto). cbn [bind]. apply IH.
    intros q Hq. apply H. right; auto.
  Qed.

  (** An update that is performed runs the rounds, starting out of equilibrium. *)
  Theorem step_moved fuel p s old w' :
    step G g P fuel p (s, old) = Ok (w', true) ->
    exists s1 k, equilibrium s1 = false /\ (k <= p_max_iterations P)%nat /\
      rounds p k s1 (fst w') /\
      (k = p_max_iterations P \/ equilibrium (fst w') = true).
  Proof.
    unfold step. destruct (g_moved G old p) as [m f]. intros H.
    destruct m; cbn [negb] in H; [|inversion H].
    apply bind_ok in H as ([a walls] & _ & H).
    apply bind_ok in H as (s1 & _ & H). apply bind_ok in H as (s2 & _ & H).
    apply bind_ok in H as (s3 & _ & H). apply bind_ok in H as (s4 & H4 & H).
    inversion H; subst. apply relax_loop_rounds in H4 as (k & Hk & R & Q).
    exists (set_equilibrium s3 false), k. cbn [fst]. auto.
  Qed.
End Loop.
