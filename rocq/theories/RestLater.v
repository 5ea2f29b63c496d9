(** The relaxation of every call of Step, and not only of the first one: what the phases
    before it can disturb, and what the former calls left. *)
From Coq Require Import ZArith List Bool Lia Permutation.
From Verif Require Import Outcome Num State Base Spec Spec2 InvBase ModelRelax ModelIntersect
  ModelBodySoil ModelBodyPos ModelUtils ModelStep RelaxBase RelaxTerrainProofs BodyPosProofs
  RelaxBodyProofs StepProofs StructProofs EquilibriumProofs AvalancheProofs AreaProofs RunProofs PropLemmas
  RestProofs.
Import ListNotations.
Open Scope Z_scope.

(** ** What MoveIntersectingCells and UpdateBodySoil change, in any arithmetic *)
Section Any.
  Context {A : Num}.
  Local Notation sim := (sim A).
  Variable frame : Z -> Z -> F A -> Pos A.
  Variable tol : F A.
  Hypothesis tol0 : fltb tol f0 = false.

  (** There is some body in the cell. *)
  Definition occupied (s : sim) (i j : Z) : Prop :=
    inb s i j = true /\ body_absent s 0 i j && body_absent s 2 i j = false.
  (** The cell or one of the eight around holds some body. *)
  Definition close_by (s : sim) (i j : Z) : Prop :=
    exists i' j', occupied s i' j' /\ Z.abs (i - i') <= 1 /\ Z.abs (j - j') <= 1.

  Section From.
    Variable s0 : sim.
    Definition tends (s : sim) : Prop :=
      only_in (close_by s0) s0 s /\ exists new, wlog s = wlog s0 ++ new.

    Lemma tends_inb s i j : tends s -> inb s i j = inb s0 i j.
    Proof. intros ((N1 & N2 & _) & _). unfold inb. rewrite N1, N2. reflexivity. Qed.
    Lemma tends_absent s k i j : tends s -> body_absent s k i j = body_absent s0 k i j.
    Proof. intros ((_ & _ & B & _) & _). unfold body_absent. rewrite B. reflexivity. Qed.
    Lemma tends_occupied s i j : tends s -> inb s i j = true ->
      body_absent s 0 i j && body_absent s 2 i j = false -> occupied s0 i j.
    Proof. intros T. rewrite (tends_inb s i j T), !(tends_absent s _ i j T). split; assumption. Qed.

    Lemma tends_t s i j v : close_by s0 i j -> tends s -> tends (set_t s i j v).
    Proof. intros C [T L]. split; [apply only_in_t; auto|exact L]. Qed.
    Lemma tends_bs s k i j v : close_by s0 i j -> tends s -> tends (set_bs s k i j v).
    Proof. intros C [T L]. split; [apply only_in_bs; auto|exact L]. Qed.
    Lemma tends_push s e : tends s -> tends (push_record s e).
    Proof. exact (fun H => H). Qed.
    Lemma tends_rng s r : tends s -> tends (set_rng s r).
    Proof. exact (fun H => H). Qed.
    Lemma tends_record_h s nn e h : tends s -> tends (set_record_h s nn e h).
    Proof. exact (fun H => H). Qed.
    Lemma tends_warn s w : tends s -> tends (warn s w).
    Proof.
      intros [T (new & L)]. split; [exact T|]. exists (new ++ [w]). cbn.
      rewrite L, app_assoc. reflexivity.
    Qed.

    Lemma occupied_close i j : occupied s0 i j -> close_by s0 i j.
    Proof. intros O. exists i, j. split; [exact O|lia]. Qed.

    Ltac tn := repeat first
      [ assumption | apply tends_push | apply tends_rng | apply tends_record_h
      | apply tends_t; [assumption|] | apply tends_bs; [assumption|] | apply tends_warn ].
    Ltac cases := repeat match goal with
      | |- context [if ?b then _ else _] =>
          lazymatch b with context [if _ then _ else _] => fail | _ => destruct b end
      end.

    (** One cell of an exploration: the walk goes on only if the cell holds body. *)
    Lemma move_body_soil_tends (s : sim) w max_h i j : tends s -> close_by s0 i j ->
      partial (move_body_soil frame tol s w max_h i j) (fun p => tends (fst p) /\
        (occupied s0 i j \/ negb (w_wall (snd p)) && fltb tol (w_h (snd p)) = false)).
    Proof.
      intros T C. unfold move_body_soil. apply partial_guard. intros Hi.
      apply andb_prop in Hi as [Hi _].
      pose proof (tends_occupied s i j T Hi) as O.
      destruct (body_absent s 0 i j), (body_absent s 2 i j); cbn [andb] in *.
      - cbn [partial fst snd w_wall w_h]. split; [tn|]. right. rewrite tol0. apply andb_false_r.
      - specialize (O eq_refl). unfold move_single. cbv zeta.
        cases; cbn [partial fst snd]; (split; [tn|auto]).
      - specialize (O eq_refl). unfold move_single. cbv zeta.
        cases; cbn [partial fst snd]; (split; [tn|auto]).
      - specialize (O eq_refl). unfold move_between. cbv zeta.
        destruct (body s 0 i j <. body s 2 i j)%num;
        cases; cbn [partial fst snd]; (split; [tn|auto]).
    Qed.

    Lemma explore_tends i j d : Z.abs (fst d) <= 1 -> Z.abs (snd d) <= 1 ->
      forall fuel (s : sim) w max_h pp, tends s ->
      (occupied s0 (i + pp * fst d) (j + pp * snd d) \/ negb (w_wall w) && fltb tol (w_h w) = false) ->
      partial (explore frame tol fuel s w max_h i j d pp) (fun p => tends (fst p)).
    Proof.
      intros D1 D2. induction fuel as [|fuel IH]; intros s w max_h pp T O; cbn [explore];
        destruct (negb (w_wall w) && fltb tol (w_h w)) eqn:E; cbn [partial fst]; auto.
      destruct O as [O|O]; [|discriminate].
      eapply partial_bind; [apply move_body_soil_tends; [exact T|]|].
      { exists (i + pp * fst d), (j + pp * snd d). split; [exact O|]. split; lia. }
      cbv beta. intros [s1 w1] [T1 O1]. cbn [fst snd] in *. apply partial_guard. intros _.
      apply IH; auto.
    Qed.

    Lemma explore_all_tends fuel ind ind_t i j : occupied s0 i j ->
      forall dirs (s : sim) h, incl dirs directions8 -> tends s ->
      partial (explore_all frame tol fuel dirs s ind ind_t i j h) (fun p => tends (fst p)).
    Proof.
      intros O. induction dirs as [|d dirs IH]; intros s h Hd T; cbn [explore_all]; [exact T|].
      assert (D : Z.abs (fst d) <= 1 /\ Z.abs (snd d) <= 1).
      { destruct (Hd d (or_introl eq_refl)) as [<-|[<-|[<-|[<-|[<-|[<-|[<-|[<-|[]]]]]]]]]; cbn; lia. }
      eapply partial_bind; [apply explore_tends; try apply D; auto|].
      { left. replace (i + 0 * fst d) with i by lia. replace (j + 0 * snd d) with j by lia. exact O. }
      cbv beta. intros [s1 w1] T1. cbn [fst] in T1. destruct (fltb (w_h w1) tol); [exact T1|].
      apply IH; [|exact T1]. intros x Hx. apply Hd. right. exact Hx.
    Qed.

    Lemma move_record_tends fuel nn e (s : sim) dirs : tends s -> Permutation dirs directions8 ->
      partial (move_record frame tol fuel nn e s dirs) (fun p =>
        tends (fst p) /\ Permutation (snd p) directions8).
    Proof.
      intros T Pd. unfold move_record. cbv zeta. apply partial_guard. intros Hi.
      apply andb_prop in Hi as [_ Hi].
      destruct (body_absent s (if e_ind e =? 0 then 2 else 0) (e_i e) (e_j e)) eqn:Eb; [cbn; auto|].
      destruct (_ && _); [|cbn; auto].
      assert (O : occupied s0 (e_i e) (e_j e)).
      { apply (tends_occupied s); auto. destruct (e_ind e =? 0); rewrite Eb;
          [apply andb_false_r|reflexivity]. }
      pose proof (occupied_close _ _ O) as C.
      destruct (fltb (e_h e) _);
        (destruct (shuffle dirs _) as [dirs' r] eqn:Es; apply shuffle_eq in Es;
         assert (Pd' : Permutation dirs' directions8) by (etransitivity; eauto);
         eapply partial_bind;
           [apply explore_all_tends;
              [exact O|intros x Hx; apply (Permutation_in _ Pd' Hx)|tn]|];
         cbv beta; intros [s1 h1] T1; cbn [fst] in T1;
         destruct (fltb tol h1); cbn [partial fst snd]; (split; [tn|exact Pd'])).
    Qed.

    Lemma move_records_tends fuel wf : forall nn (s : sim) dirs,
      tends s -> Permutation dirs directions8 ->
      partial (move_records frame tol fuel wf nn s dirs) tends.
    Proof.
      induction fuel as [|fuel IH]; intros nn s dirs T Pd; cbn [move_records];
        (destruct (nth_error _ _); [|exact T]); [exact I|].
      eapply partial_bind; [apply move_record_tends; auto|].
      cbv beta. intros [s1 d1] [T1 P1]. cbn [fst snd] in *. apply IH; auto.
    Qed.

    (** One ring around an intersecting cell: soil remains only if all its cells hold body. *)
    Lemma spread_ring_tends i j pp : forall dirs (s : sim) h, tends s ->
      (forall d, In d dirs -> close_by s0 (i + fst d * pp) (j + snd d * pp)) ->
      partial (spread_ring tol dirs s i j pp h) (fun p => tends (fst p) /\
        (fltb tol (snd p) = false \/
         forall d, In d dirs -> occupied s0 (i + fst d * pp) (j + snd d * pp))).
    Proof.
      induction dirs as [|d dirs IH]; intros s h T C; cbn [spread_ring].
      { cbn [partial fst snd]. split; [exact T|]. right. intros d []. }
      apply partial_guard. intros Hi. cbv zeta.
      assert (C0 := C d (or_introl eq_refl)).
      assert (C' : forall d, In d dirs -> close_by s0 (i + fst d * pp) (j + snd d * pp))
        by (intros x Hx; apply C; right; exact Hx).
      destruct (body_absent s 0 _ _ && body_absent s 2 _ _) eqn:Eb.
      { cbn [partial fst snd]. split; [tn|]. left. exact tol0. }
      pose proof (tends_occupied s _ _ T Hi Eb) as O.
      assert (K : forall p : sim * F A, tends (fst p) /\ (fltb tol (snd p) = false \/
          forall d, In d dirs -> occupied s0 (i + fst d * pp) (j + snd d * pp)) ->
        tends (fst p) /\ (fltb tol (snd p) = false \/
          forall d', In d' (d :: dirs) -> occupied s0 (i + fst d' * pp) (j + snd d' * pp))).
      { intros p [K1 [K2|K2]]; (split; [exact K1|]); [left; exact K2|right].
        intros d' [<-|Hd']; [exact O|apply K2, Hd']. }
      destruct (fltb (fadd _ tol) _).
      - destruct (fltb _ h).
        + eapply partial_weaken; [apply IH; [tn|exact C']|]. intros p. apply K.
        + cbn [partial fst snd]. split; [tn|]. left. exact tol0.
      - eapply partial_weaken; [apply IH; [tn|exact C']|]. intros p. apply K.
    Qed.

    Lemma spread_tends i j dirs : incl dirs directions8 -> forall fuel (s : sim) pp h, tends s ->
      (fltb tol h = false \/ forall d, In d dirs -> occupied s0 (i + fst d * pp) (j + snd d * pp)) ->
      partial (spread tol fuel dirs s i j pp h) tends.
    Proof.
      intros Hd. induction fuel as [|fuel IH]; intros s pp h T O; cbn [spread];
        (destruct (fltb tol h) eqn:Eh; [|exact T]); [exact I|].
      destruct O as [O|O]; [discriminate|].
      eapply partial_bind; [apply spread_ring_tends; [exact T|]|].
      - intros d Hi. exists (i + fst d * pp), (j + snd d * pp). split; [apply O, Hi|].
        destruct (Hd d Hi) as [<-|[<-|[<-|[<-|[<-|[<-|[<-|[<-|[]]]]]]]]]; cbn [fst snd]; lia.
      - cbv beta. intros [s1 h1] [T1 O1]. cbn [fst snd] in *. apply IH; auto.
    Qed.

    Lemma locate_occupied (s : sim) : tends s ->
      partial (locate_intersecting_cells tol s) (fun l => forall k i j, In (k, i, j) l -> occupied s0 i j).
    Proof.
      intros T. unfold locate_intersecting_cells. apply for_each_partial; [|intros k i j []].
      intros [i j] acc _ H. apply partial_guard. intros Hi. cbn [partial]. cbv zeta.
      assert (B : forall k, layer k -> body_present s k i j = true -> occupied s0 i j).
      { intros k Hk Hb. apply (tends_occupied s); auto.
        assert (E : body_absent s k i j = false).
        { unfold body_present in Hb. unfold body_absent.
          destruct (feqb (body s k i j) f0), (feqb (body s (k + 1) i j) f0); auto. }
        destruct Hk as [-> | ->]; rewrite E; [reflexivity|apply andb_false_r]. }
      assert (H1 : forall k l, layer k -> (forall k i j, In (k, i, j) l -> occupied s0 i j) ->
        forall b, forall k' i' j', In (k', i', j') (if body_present s k i j && b then l ++ [(k, i, j)] else l) ->
          occupied s0 i' j').
      { intros k l Hk Hl b k' i' j' Hin. destruct (body_present s k i j) eqn:Eb; cbn [andb] in Hin; [|eauto].
        destruct b; [|eauto]. apply in_app_iff in Hin as [Hin|[E|[]]]; [eauto|].
        injection E as <- <- <-. apply (B k Hk Eb). }
      apply H1; [right; reflexivity|]. apply H1; [left; reflexivity|exact H].
    Qed.

    Theorem move_intersecting_cells_tends fuel : 
      partial (move_intersecting_cells frame tol fuel s0) tends.
    Proof.
      unfold move_intersecting_cells, move_intersecting_body_soil.
      eapply partial_bind; [apply move_records_tends; [|reflexivity]|].
      { split; [apply only_in_refl|]. exists []. symmetry. apply app_nil_r. }
      intros s1 T1. unfold move_intersecting_body.
      eapply partial_bind; [apply locate_occupied, T1|]. cbv beta. intros cells Hc.
      eapply partial_bind with (P := fun p => tends (fst p) /\ Permutation (snd p) directions8).
      - apply for_each_partial; [|cbn [fst snd]; auto].
        intros [[ind i] j] [s2 dirs] Hin [T2 P2]. cbn [fst snd] in *. unfold move_terrain_cell.
        specialize (Hc _ _ _ Hin). pose proof (occupied_close _ _ Hc) as C.
        destruct (fltb (fsub _ tol) _); [cbn; auto|].
        destruct (shuffle dirs _) as [dirs' r] eqn:Es. apply shuffle_eq in Es.
        assert (P' : Permutation dirs' directions8) by (etransitivity; eauto).
        eapply partial_bind; [apply spread_tends|].
        + intros x Hx. apply (Permutation_in _ P' Hx).
        + tn.
        + right. intros d _. replace (i + fst d * 0) with i by lia. replace (j + snd d * 0) with j by lia.
          exact Hc.
        + intros s3 T3. cbn [partial fst snd]. split; [tn|exact P'].
      - intros [s2 d2] [T2 _]. exact T2.
    Qed.
  End From.

  (** Without the warning, UpdateBodySoil does not touch the terrain. *)
  Lemma update_body_soil_terrain g rl (s : sim) :
    partial (update_body_soil g tol rl s) (fun s' =>
      exists new, wlog s' = wlog s ++ new /\ (In WToTerrain new \/ terrain s' = terrain s)).
  Proof.
    unfold update_body_soil.
    set (I := fun s' : sim => exists new, wlog s' = wlog s ++ new /\
                (In WToTerrain new \/ terrain s' = terrain s)).
    eapply partial_bind with (P := I).
    - apply for_each_partial; [|exists []; rewrite app_nil_r; auto]. intros e s1 _ H1.
      unfold reset_record. apply partial_guard. intros _. exact H1.
    - intros s1 H1. apply for_each_partial; [|exact H1].
      intros e s2 _ H2. unfold update_record. destruct (f_below _ _); [exact H2|].
      eapply partial_bind with (P := fun _ => True).
      { destruct (rl (e_pos e)); exact Logic.I. }
      intros r _. eapply partial_bind with (P := fun _ => True).
      { destruct (find_wall _ _ _ _ _ _); exact Logic.I. }
      intros [hit best] _. destruct hit as [[[i j] k]|]; [exact H2|].
      destruct (negb _).
      + destruct (fst best) as [[[i j] k]|]; [exact H2|exact Logic.I].
      + apply partial_guard. intros _. destruct H2 as (new & L & _).
        exists (new ++ [WToTerrain]). cbn. rewrite L, app_assoc. split; [reflexivity|].
        left. apply in_app_iff. right. left. reflexivity.
  Qed.
End Any.

(** ** Every call of Step *)
Section Later.
  Context {upm : units}.
  Local Notation sim := (sim (ZNum upm)).
  Variable G : geom (ZNum upm).
  Variable g : grid_t (ZNum upm).
  Variable P : params (ZNum upm).
  Variable legal : pose G -> Prop.
  Variable near : Pos (ZNum upm) -> Prop.
  Local Notation dh := (p_dh_max P : Z).
  Local Notation tol := (p_tol P : Z).
  Hypothesis Hg : grid_ok g.
  Hypothesis HP : params_ok g P.
  Hypothesis HG : geom_ok g G legal near.
  Hypothesis Hb : 3 <= p_cell_buffer P.
  Local Notation ok := (state_ok g G legal near).

  (** The area computed with the walls contains the five by five cells around each of theirs. *)
  Definition wide : Prop :=
    forall p a walls, legal p -> g_raster G p = Ok (a, walls) ->
    forall w i j k i' j', In w walls -> In (i, j, k) w -> interior g i' j' ->
      Z.abs (i' - i) <= 2 -> Z.abs (j' - j) <= 2 -> in_area a i' j'.

  (** The body of [s] and its surroundings are in the area computed at [p]. *)
  Definition overlaps (s : sim) (p : pose G) : Prop :=
    forall a walls, g_raster G p = Ok (a, walls) ->
    forall k i j i' j', on_grid s i j -> layer k -> body_at s k i j -> interior g i' j' ->
      Z.abs (i' - i) + Z.abs (j' - j) <= 2 -> in_area a i' j'.

  (** The terrain of the cell is not too steep, whatever is around. *)
  Definition gentle (s : sim) (i j : Z) : Prop :=
    forall d, beside d ->
      (terrain s i j : Z) - dh <= (terrain s (i + fst d) (j + snd d) : Z) + tol.

  (** The cell is at a distance of at least three cells of the body. *)
  Definition apart (s : sim) (i j : Z) : Prop :=
    forall k i' j', on_grid s i' j' -> layer k -> body_at s k i' j' ->
      2 < Z.abs (i - i') + Z.abs (j - j').

  (** Where steep cells can be. *)
  Definition gentle_outside (s : sim) : Prop :=
    forall i j, interior g i j -> ~ in_area (body_area s) i j ->
      ~ in_area (relax_area s) i j -> gentle s i j.
  Definition gentle_apart (s : sim) : Prop :=
    forall i j, interior g i j -> apart s i j -> ~ in_area (relax_area s) i j -> gentle s i j.
  Definition gentle_calm (s : sim) : Prop :=
    equilibrium s = true ->
    forall i j, interior g i j -> ~ in_area (relax_area s) i j -> gentle s i j.

  Lemma gentle_rests (s : sim) i j : gentle s i j -> rests P s i j.
  Proof. intros Q d Hd [F _]. specialize (Q d Hd). lia. Qed.
  Lemma gentle_rest_outside (s : sim) : gentle_outside s -> rest_outside g P s.
  Proof. intros Q i j Hi N1 N2. apply gentle_rests, Q; assumption. Qed.
  Lemma gentle_local (s s' : sim) i j :
    (forall i' j', Z.abs (i' - i) + Z.abs (j' - j) <= 1 -> terrain s' i' j' = terrain s i' j') ->
    gentle s i j -> gentle s' i j.
  Proof.
    intros E Q d Hd. specialize (Q d Hd). rewrite (E i j ltac:(lia)).
    rewrite (E (i + fst d) (j + snd d)); [exact Q|]. unfold beside in Hd. lia.
  Qed.
  Lemma gentle_apart_outside (s : sim) : surrounded g s -> gentle_apart s -> gentle_outside s.
  Proof.
    intros Hs Ha i j Hi Nb Nr. apply Ha; auto. intros k i' j' Hg' Hk Hbd.
    destruct (Z_lt_le_dec 2 (Z.abs (i - i') + Z.abs (j - j'))); [assumption|].
    exfalso. apply Nb. apply (Hs k i' j'); auto.
  Qed.
  Lemma candidate_gentle (s : sim) i j :
    unstable_candidate (A := ZNum upm) dh tol s i j = Ok false -> gentle s i j.
  Proof.
    unfold unstable_candidate, guard. destruct (_ && _); [|discriminate].
    intros E. injection E as E. apply orb_false_iff in E as [E E4].
    apply orb_false_iff in E as [E E3]. apply orb_false_iff in E as [E1 E2].
    cbn [fltb fsub ZNum] in E1, E2, E3, E4. apply Z.ltb_ge in E1, E2, E3, E4.
    intros d Hd. apply beside_directions4 in Hd.
    destruct Hd as [<-|[<-|[<-|[<-|[]]]]]; cbn [fst snd];
      rewrite ?Z.add_0_r; unfold Z.sub in *; cbn [Z.opp] in *; lia.
  Qed.

  (** One round. *)
  Lemma relax_round_gentle p (s s' : sim) :
    loop_ok g G near p s -> surrounded g s -> gentle_outside s ->
    relax_round (A := ZNum upm) G g P p s = Ok s' ->
    surrounded g s' /\ gentle_apart s' /\ gentle_calm s'.
  Proof.
    intros L Hs Ho E.
    pose proof (relax_round_good g G near P HP p s L) as Rg. rewrite E in Rg.
    cbn [returns] in Rg. destruct Rg as (L' & (Dm & Bq & Ba & _ & _)).
    assert (Keep := E).
    split.
    { intros k i j i' j' Hg' Hk Hb' Hi Hd. rewrite Ba. apply (Hs k i j i' j'); auto.
      - unfold on_grid in *. destruct Dm as [-> ->] in Hg'. exact Hg'.
      - unfold body_at in *. rewrite !Bq in Hb'. exact Hb'. }
    destruct L as (Hgood & Hsz & Hba & Hra).
    pose proof HP as (P1 & P2 & P3 & P4 & P5 & P6 & P7).
    unfold relax_round in E. set (s0 := update_impact_area s) in E.
    apply bind_ok in E as (s1 & E1 & E2).
    (* the state before RelaxBodySoil is consistent *)
    assert (G1 : good near (cell_z g) (g_frame G p) s1 (records s1) /\ flows_w s0 s1).
    { assert (Hgood0 : good near (cell_z g) (g_frame G p) s0 (records s0)).
      { apply (good_same near (cell_z g) (g_frame G p) s); [repeat split|exact Hgood]. }
      assert (Hroom : int_room (p_cell_buffer P) s0).
      { destruct Hsz as [X1 X2]. unfold int_room. subst s0. cbn. rewrite X1, X2. lia. }
      assert (Hia : area_in s0 (impact_area s0)).
      { subst s0. unfold area_in in *. cbn. lia. }
      assert (Q : returns (relax_terrain (g_frame G p) g dh (p_cell_buffer P) tol s0)
        (fun s' => good near (cell_z g) (g_frame G p) s' (records s') /\ flows_w s0 s' /\
                 impact_area s' = impact_area s0 /\ area_in s0 (relax_area s'))).
      { apply relax_terrain_good with (near := near); auto. }
      zn. rewrite E1 in Q. cbn [returns] in Q. tauto. }
    destruct G1 as [G1 ((D1x & D1y) & B1 & _)].
    pose proof (partial_ok _ _ _ (relax_terrain_cover (A := ZNum upm) (g_frame G p) g dh tol
      (p_cell_buffer P) s0) E1) as (cells & C1 & C2 & C3 & C4).
    set (s2 := shuffle_records s1) in E2.
    pose proof (partial_ok _ _ _ (relax_body_soil_cover (A := ZNum upm) (g_frame G p) g dh tol s2) E2)
      as [O2 R2].
    assert (S2 : terrain s2 = terrain s1 /\ relax_area s2 = relax_area s1 /\
      Permutation (records s2) (records s1)).
    { subst s2. unfold shuffle_records.
      destruct (shuffle (records s1) (rng s1)) as [l r] eqn:Sh. apply shuffle_eq in Sh.
      cbn. auto. }
    destruct S2 as (T2 & W2 & Pm).
    destruct C2 as (_ & _ & _ & _ & _ & C2). destruct O2 as (_ & _ & _ & _ & _ & O2).
    (* the cells around a cell that is not to be relaxed *)
    assert (F1 : forall i j, interior g i j -> ~ in_area (relax_area s1) i j ->
      forall i' j', Z.abs (i' - i) + Z.abs (j' - j) <= 1 -> ~ around_cells cells i' j').
    { intros i j Hi Nr i' j' Hd ([ci cj] & Hc & Hd'). cbn [fst snd] in Hd'. apply Nr.
      destruct Hi as [Hi Hj]. apply (C4 i j ci cj Hc Hi Hj); lia. }
    assert (R0 : forall i j, interior g i j -> ~ in_area (relax_area s1) i j -> gentle s i j).
    { intros i j Hi Nr.
      assert (Nr0 : ~ in_area (impact_area s0) i j -> gentle s i j).
      { intros N. apply Ho; auto; intros Q; apply N; revert Q; unfold in_area;
          subst s0; cbn [impact_area update_impact_area set_impact_area x_lo x_hi y_lo y_hi]; lia. }
      destruct (Z_le_dec (x_lo (impact_area s0)) i), (Z_lt_dec i (x_hi (impact_area s0))),
        (Z_le_dec (y_lo (impact_area s0)) j), (Z_lt_dec j (y_hi (impact_area s0)));
      try (apply Nr0; unfold in_area; lia).
      destruct (C1 i j ltac:(unfold in_area; lia)) as [Hc|Hc].
      - exfalso. apply (F1 i j Hi Nr i j ltac:(lia)). exists (i, j). split; [auto|cbn; lia].
      - exact (candidate_gentle s0 i j Hc). }
    split.
    - intros i j Hi Nb Nr. rewrite R2, W2 in Nr.
      apply (gentle_local s s'); [|apply R0; assumption].
      intros i' j' Hd.
      assert (F2 : ~ around_soil (A := ZNum upm) tol (records s2) i' j').
      { intros (e & He & Hh & Hd').
        cbn [fltb ZNum] in Hh. apply Z.ltb_ge in Hh.
        destruct (positive_record_body P near s1 (records s1) (cell_z g) e P1) as [Hg' Hbd].
        { apply G1. }
        { eapply Permutation_in; eauto. }
        { exact Hh. }
        assert (Hk : layer (e_ind e)).
        { destruct G1 as ((_ & _ & _ & Fr) & _). rewrite Forall_forall in Fr.
          apply (Fr e). eapply Permutation_in; eauto. }
        specialize (Nb (e_ind e) (e_i e) (e_j e)). destruct Dm as [Dm1 Dm2].
        assert (2 < Z.abs (i - e_i e) + Z.abs (j - e_j e)); [apply Nb; auto|lia].
        - unfold on_grid in *. rewrite D1x, D1y in Hg'. rewrite Dm1, Dm2. exact Hg'.
        - unfold body_at in *. rewrite !B1 in Hbd. rewrite !Bq. exact Hbd. }
      destruct (C2 i' j' (F1 i j Hi Nr i' j' Hd)) as [X1 _], (O2 i' j' F2) as [Y1 _].
      rewrite Y1, T2, X1. reflexivity.
    - intros Q i j Hi Nr. rewrite R2, W2 in Nr.
      destruct (relax_round_rest G g P p s s' Keep Q) as (_ & Et & _).
      apply (gentle_local s s'); [|apply R0; assumption]. intros. rewrite Et. reflexivity.
  Qed.

  Lemma relax_loop_gentle p : forall n (s s' : sim), (n <> 0)%nat ->
    loop_ok g G near p s -> surrounded g s -> gentle_outside s -> equilibrium s = false ->
    relax_loop (A := ZNum upm) G g P p n s = Ok s' -> gentle_apart s' /\ gentle_calm s'.
  Proof.
    induction n as [|n IH]; intros s s' Hn L Hs Ho E0 E; [contradiction|].
    cbn [relax_loop] in E. rewrite E0 in E. apply bind_ok in E as (s1 & E1 & E).
    destruct (relax_round_gentle p s s1 L Hs Ho E1) as (Hs1 & Ha1 & Hc1).
    pose proof (relax_round_good g G near P HP p s L) as Rg. rewrite E1 in Rg.
    destruct Rg as (L1 & _).
    destruct n as [|n]; [cbn [relax_loop] in E; injection E as <-; auto|].
    destruct (equilibrium s1) eqn:Q1.
    - cbn [relax_loop] in E. rewrite Q1 in E. injection E as <-. auto.
    - apply (IH s1 s'); auto. apply gentle_apart_outside; auto.
  Qed.

  Section Phases.
    Variables (fuel : nat) (p old : pose G) (s s1 s2 s3 : sim) (a : area) (walls : list (list cell3)).
    Hypothesis Hr : wide.
    Hypothesis Hw : ok (s, old).
    Hypothesis Hp : legal p.
    Hypothesis E0 : g_raster G p = Ok (a, walls).
    Hypothesis E1 : calc_body_pos g (p_tol P) a walls s = Ok s1.
    Hypothesis E2 : update_body_soil g (p_tol P) (g_reloc G old p) s1 = Ok s2.
    Hypothesis E3 : move_intersecting_cells (g_frame G p) (p_tol P) fuel s2 = Ok s3.
    Local Notation s4 := (set_equilibrium s3 false).

    Lemma phases_state : ok (s4, p).
    Proof. exact (phases_ok g G legal near Hg HG P fuel p s s1 s2 s3 _ old a walls 0 HP Hw Hp E0 E1 E2 E3 eq_refl). Qed.

    Lemma phases_loop_ok : loop_ok g G near p s4.
    Proof.
      destruct phases_state as (Z1 & Z2 & Z3 & Z4 & Z5 & Z6 & Z7 & _).
      pose proof Z1 as [X1 X2].
      split; [|split; [exact Z1|unfold area_in, within_grid in *; rewrite X1, X2; lia]].
      split; [exact Z2|]. split; [exact Z3|]. split; [exact Z4|].
      intros i j k Hij Hk Hbd. apply (Z5 k i j Hij Hk Hbd).
    Qed.

    Lemma phases_areas : body_area s4 = a /\ relax_area s4 = relax_area s.
    Proof.
      pose proof (partial_ok _ _ _ (calc_body_pos_areas (A := ZNum upm) g (p_tol P) a walls s) E1)
        as (A1 & A2 & _).
      pose proof (partial_ok _ _ _ (update_body_soil_areas (A := ZNum upm) g (p_tol P)
        (g_reloc G old p) s1) E2) as (Y1 & Y2 & _).
      pose proof (partial_ok _ _ _ (move_intersecting_cells_areas (A := ZNum upm)
        (g_frame G p) (p_tol P) fuel s2) E3) as (W1 & W2 & _).
      cbn [body_area relax_area set_equilibrium]. split; congruence.
    Qed.

    Lemma phases_dims : nx s2 = nx s4 /\ ny s2 = ny s4 /\ nx s = nx s4 /\ ny s = ny s4 /\
      body s4 = body s1 /\ body s2 = body s1.
    Proof.
      pose proof (partial_ok _ _ _ (update_body_soil_body (A := ZNum upm) g (p_tol P)
        (g_reloc G old p) s1) E2) as (B1 & B2 & B3).
      pose proof (partial_ok _ _ _ (move_intersecting_cells_only (A := ZNum upm)
        (g_frame G p) (p_tol P) fuel s2) E3) as (C1 & C2 & C3 & _).
      destruct phases_state as ([X1 X2] & _). destruct Hw as ([Y1 Y2] & _).
      cbn [nx ny body set_equilibrium] in *. rewrite C3, B3.
      repeat split; congruence.
    Qed.

    Lemma phases_cells k i j : on_grid s4 i j -> layer k -> body_at s4 k i j ->
      exists w z, In w walls /\ In (i, j, z) w.
    Proof.
      intros Hij Hk Hbd. destruct phases_dims as (_ & _ & D1 & D2 & D3 & _).
      destruct Hw as ([X1 X2] & _ & _ & _ & Z5 & Z6 & _ & _).
      destruct HG as [HG1 _]. destruct (HG1 p Hp) as (a' & walls' & Er & (K1 & K2 & K3) & _).
      assert (Ew : a' = a /\ walls' = walls) by (split; congruence).
      destruct Ew as [-> ->].
      destruct (calc_body_pos_exact g (p_tol P) a walls s s1 Hg) as (_ & C2 & _); auto.
      { apply HP. }
      { intros i' j' Hi. unfold in_area, within_grid in *. unfold on_grid. rewrite X1, X2. lia. }
      { intros k' i' j' Hi Hk' Hbd'. apply (Z5 k' i' j' Hi Hk' Hbd'). }
      { intros w0 i' j' k' Iw Ic. destruct (K3 w0 i' j' k' Iw Ic) as [Q1 Q2].
        split; [|exact Q2]. unfold in_area, within_grid in *. unfold inside. rewrite X1, X2. lia. }
      apply (C2 k i j); auto.
      - unfold on_grid in *. rewrite D1, D2. exact Hij.
      - unfold body_at in *. rewrite D3 in Hbd. exact Hbd.
    Qed.

    Lemma phases_surrounded : surrounded g s4.
    Proof.
      intros k i j i' j' Hij Hk Hbd Hi Hd. rewrite (proj1 phases_areas).
      destruct (phases_cells k i j Hij Hk Hbd) as (w0 & z & Iw & Ic).
      apply (Hr p a walls Hp E0 w0 i j z i' j' Iw Ic Hi); lia.
    Qed.

    (** The terrain only changes around the body. *)
    Lemma phases_terrain :
      (exists new, wlog s2 = wlog s1 ++ new /\ ~ In WToTerrain new) ->
      forall i j, interior g i j -> ~ in_area a i j ->
      forall i' j', Z.abs (i' - i) + Z.abs (j' - j) <= 1 -> terrain s4 i' j' = terrain s i' j'.
    Proof.
      intros (new & Ln & Nw) i j Hi Nb i' j' Hd.
      destruct phases_dims as (D1 & D2 & D3 & D4 & D5 & D6).
      assert (New : forall k i' j', on_grid s4 i' j' -> layer k -> body_at s4 k i' j' ->
        2 < Z.abs (i - i') \/ 2 < Z.abs (j - j')).
      { intros k i2 j2 Hg' Hk Hbd.
        destruct (Z_lt_le_dec 2 (Z.abs (i - i2))); [left; assumption|].
        destruct (Z_lt_le_dec 2 (Z.abs (j - j2))); [right; assumption|].
        exfalso. apply Nb. destruct (phases_cells k i2 j2 Hg' Hk Hbd) as (w0 & z & Iw & Ic).
        apply (Hr p a walls Hp E0 w0 i2 j2 z i j Iw Ic Hi); lia. }
      assert (T3 : terrain s3 i' j' = terrain s2 i' j').
      { assert (T0 : fltb (n := ZNum upm) (p_tol P) f0 = false).
        { cbn. apply Z.ltb_ge. destruct HP as (? & _). cbn in *. lia. }
        pose proof (partial_ok _ _ _ (move_intersecting_cells_tends (A := ZNum upm) (g_frame G p) (p_tol P)
          T0 s2 fuel) E3) as [(_ & _ & _ & _ & _ & O) _].
        apply O. intros (i2 & j2 & (Oi & Ob) & A1 & A2).
        assert (Hg2 : on_grid s4 i2 j2).
        { unfold inb in Oi. rewrite !andb_true_iff, !Z.leb_le, !Z.ltb_lt in Oi.
          unfold on_grid. rewrite <- D1, <- D2. lia. }
        assert (K : exists k, layer k /\ body_at s4 k i2 j2).
        { unfold body_at. rewrite D5, <- D6.
          destruct (Z.eq_dec (body s2 0 i2 j2) 0) as [Q1|Q1];
            [|exists 0; split; [left; reflexivity|left; exact Q1]].
          destruct (Z.eq_dec (body s2 1 i2 j2) 0) as [Q2|Q2];
            [|exists 0; split; [left; reflexivity|right; exact Q2]].
          destruct (Z.eq_dec (body s2 2 i2 j2) 0) as [Q3|Q3];
            [|exists 2; split; [right; reflexivity|left; exact Q3]].
          destruct (Z.eq_dec (body s2 3 i2 j2) 0) as [Q4|Q4];
            [|exists 2; split; [right; reflexivity|right; exact Q4]].
          exfalso. revert Ob. change ((((body s2 0 i2 j2 : Z) =? 0) && ((body s2 1 i2 j2 : Z) =? 0)) &&
            (((body s2 2 i2 j2 : Z) =? 0) && ((body s2 3 i2 j2 : Z) =? 0)) = false -> False).
          rewrite Q1, Q2, Q3, Q4. discriminate. }
        destruct K as (k & Hk & Hbd). specialize (New k i2 j2 Hg2 Hk Hbd). lia. }
      assert (T2 : terrain s2 = terrain s1).
      { pose proof (partial_ok _ _ _ (update_body_soil_terrain (A := ZNum upm) (p_tol P) g
          (g_reloc G old p) s1) E2) as (new' & Ln' & Q).
        assert (new' = new) by (rewrite Ln in Ln'; apply app_inv_head in Ln'; auto). subst new'.
        destruct Q as [Q|Q]; [contradiction|exact Q]. }
      assert (T1 : terrain s1 i' j' = terrain s i' j').
      { destruct HG as [HG1 _]. destruct (HG1 p Hp) as (a' & walls' & Er' & Rok & Rn).
        assert (Ew : a' = a /\ walls' = walls) by (split; congruence). destruct Ew as [-> ->].
        pose proof (body_phase_good g G legal near P Hg HP old p s a walls Hw E0 Rok Rn) as Q.
        rewrite E1 in Q. cbn [returns] in Q. destruct Q as (_ & _ & _ & (_ & _ & Tq & _)).
        apply Tq. }
      cbn [terrain set_equilibrium]. rewrite T3, T2. exact T1.
    Qed.

    Lemma phases_gentle :
      (exists new, wlog s2 = wlog s1 ++ new /\ ~ In WToTerrain new) ->
      gentle_apart s -> gentle_calm s -> equilibrium s = true \/ overlaps s p ->
      gentle_outside s4.
    Proof.
      intros Ln Ga Gc Hc i j Hi Nb Nr.
      destruct phases_areas as [Ea Er]. rewrite Ea in Nb. rewrite Er in Nr.
      apply (gentle_local s); [exact (phases_terrain Ln i j Hi Nb)|].
      destruct Hc as [Q|Ov]; [apply Gc; assumption|].
      apply Ga; auto. intros k i' j' Hg' Hk Hbd.
      destruct (Z_lt_le_dec 2 (Z.abs (i - i') + Z.abs (j - j'))); [assumption|].
      exfalso. apply Nb. exact (Ov a walls E0 k i' j' i j Hg' Hk Hbd Hi ltac:(lia)).
    Qed.
  End Phases.

  (** If an equilibrium is reported, nothing of the interior can avalanche. *)
  Definition settled (s : sim) : Prop :=
    equilibrium s = true -> forall i j, interior g i j -> rests P s i j.

  (** The warning that soil left the body for the terrain was not issued. *)
  Definition kept (s s' : sim) : Prop :=
    forall new, wlog s' = wlog s ++ new -> ~ In WToTerrain new.

  (** A call that moves the body. *)
  Theorem step_settles fuel p (w w' : world G) :
    wide -> p_max_iterations P <> 0%nat -> ok w -> legal p ->
    gentle_apart (fst w) -> gentle_calm (fst w) -> equilibrium (fst w) = true \/ overlaps (fst w) p ->
    kept (fst w) (fst w') ->
    step (A := ZNum upm) G g P fuel p w = Ok (w', true) ->
    gentle_apart (fst w') /\ gentle_calm (fst w') /\ settled (fst w').
  Proof.
    intros Hr Hn Hw Hp Ga Gc Hc Kp E. destruct w as [s old]. cbn [fst snd] in *.
    destruct (step_phases G g P fuel p s old w' E) as (a & walls & s1 & s2 & s3 & H).
    cbv zeta in H. set (s0 := if snd (g_moved G old p) then warn s WLargeMove else s) in H.
    destruct H as (E0 & E1 & E2 & E3 & E4 & _).
    assert (Hw0 : ok (s0, old)) by (subst s0; destruct (snd _); exact Hw).
    pose proof (phases_loop_ok fuel p old s0 s1 s2 s3 a walls Hw0 Hp E0 E1 E2 E3) as Lo.
    pose proof (phases_surrounded fuel p old s0 s1 s2 s3 a walls Hr Hw0 Hp E0 E1 E2 E3) as Su.
    assert (Go : gentle_outside (set_equilibrium s3 false)).
    { apply (phases_gentle fuel p old s0 s1 s2 s3 a walls Hr Hw0 Hp E0 E1 E2 E3).
      - assert (L0 : exists n0, wlog s0 = wlog s ++ n0).
        { subst s0. destruct (snd _); [exists [WLargeMove]|exists []; symmetry; apply app_nil_r]. reflexivity. }
        destruct L0 as (n0 & L0).
        assert (L1 : wlog s1 = wlog s0).
        { destruct HG as [HG1 _]. destruct (HG1 p Hp) as (a' & walls' & Er' & Rok & Rn).
          assert (Ew : a' = a /\ walls' = walls) by (split; congruence). destruct Ew as [-> ->].
          pose proof (body_phase_good g G legal near P Hg HP old p s0 a walls Hw0 E0 Rok Rn) as Q.
          rewrite E1 in Q. cbn [returns] in Q. destruct Q as (_ & _ & _ & Q).
          destruct Q as (_ & _ & _ & _ & _ & _ & _ & _ & _ & Q). exact Q. }
        pose proof (partial_ok _ _ _ (update_body_soil_terrain (A := ZNum upm) (p_tol P) g
          (g_reloc G old p) s1) E2) as (n2 & L2 & _).
        assert (T0 : fltb (n := ZNum upm) (p_tol P) f0 = false).
        { cbn. apply Z.ltb_ge. destruct HP as (? & _). cbn in *. lia. }
        pose proof (partial_ok _ _ _ (move_intersecting_cells_tends (A := ZNum upm) (g_frame G p) (p_tol P)
          T0 s2 fuel) E3) as [_ (n3 & L3)].
        pose proof (relax_loop_good g G near P HP p (p_max_iterations P) _ Lo) as Rg.
        zn. rewrite E4 in Rg. cbn [returns] in Rg. destruct Rg as (_ & (_ & _ & _ & L4 & _)).
        cbn [wlog set_equilibrium] in L4.
        exists n2. split; [exact L2|]. intros Hin. apply (Kp (n0 ++ n2 ++ n3)).
        + rewrite L4, L3, L2, L1, L0, !app_assoc. reflexivity.
        + apply in_app_iff. right. apply in_app_iff. left. exact Hin.
      - subst s0. destruct (snd _); exact Ga.
      - subst s0. destruct (snd _); exact Gc.
      - subst s0. destruct (snd _); exact Hc. }
    destruct (relax_loop_gentle p _ _ (fst w') Hn Lo Su Go eq_refl E4) as [Q1 Q2].
    split; [exact Q1|]. split; [exact Q2|]. intros Q.
    exact (relax_loop_rests G g P near HP p _ Hb _ (fst w') Lo Su (gentle_rest_outside _ Go) eq_refl E4 Q).
  Qed.

  Lemma kept_split (s1 s2 s3 : sim) :
    (exists n, wlog s2 = wlog s1 ++ n) -> (exists n, wlog s3 = wlog s2 ++ n) ->
    kept s1 s3 -> kept s1 s2 /\ kept s2 s3.
  Proof.
    intros (n1 & L1) (n2 & L2) K. split; intros new L Hin.
    - apply (K (new ++ n2)); [rewrite L2, L, app_assoc; reflexivity|]. apply in_app_iff. auto.
    - apply (K (n1 ++ new)); [rewrite L, L1, app_assoc; reflexivity|]. apply in_app_iff. auto.
  Qed.

  (** Before every call, either the former ones had reached an equilibrium or the body is moved
      next to where it was. *)
  Definition watched (fuel : nat) (ps : list (pose G)) (w : world G) : Prop :=
    forall ps1 p ps2 w1, ps = ps1 ++ p :: ps2 -> run (A := ZNum upm) G g P fuel ps1 w = Ok w1 ->
      equilibrium (fst w1) = true \/ overlaps (fst w1) p.

  Theorem run_settles fuel ps : wide -> p_max_iterations P <> 0%nat -> forall (w w' : world G),
    ok w -> Forall legal ps -> watched fuel ps w ->
    gentle_apart (fst w) -> gentle_calm (fst w) -> settled (fst w) ->
    run (A := ZNum upm) G g P fuel ps w = Ok w' -> kept (fst w) (fst w') ->
    gentle_apart (fst w') /\ gentle_calm (fst w') /\ settled (fst w').
  Proof.
    intros Hr Hn. induction ps as [|p ps IH]; intros w w' Hw Hps Wt Ga Gc Se E K; cbn [run] in E.
    - injection E as <-. auto.
    - apply bind_ok in E as ([w1 b] & E1 & E).
      pose proof (Forall_inv Hps) as Hp. pose proof (Forall_inv_tail Hps) as Hps'.
      destruct (step_ok g G legal near Hg HG P fuel p w w1 b HP Hw Hp E1) as [Hw1 (n1 & L1 & _)].
      destruct (run_ok g G legal near Hg HG P fuel ps w1 w' HP Hw1 Hps' E) as [_ (n2 & L2 & _)].
      destruct (kept_split (fst w) (fst w1) (fst w') ltac:(eauto) ltac:(eauto) K) as [K1 K2].
      assert (Wt1 : watched fuel ps w1).
      { intros ps1 q ps2 w2 Eq R. apply (Wt (p :: ps1) q ps2 w2); [rewrite Eq; reflexivity|].
        cbn [run]. rewrite E1. exact R. }
      assert (Q : gentle_apart (fst w1) /\ gentle_calm (fst w1) /\ settled (fst w1)).
      { destruct b.
        - apply (step_settles fuel p w w1); auto. exact (Wt [] p ps w eq_refl eq_refl).
        - destruct w as [s old]. destruct (step_result G g P fuel p s old w1 false E1) as [Eb _].
          clear - E1 Ga Gc Se Eb. unfold step in E1. destruct (g_moved G old p) as [m far].
          cbn [fst] in Eb. subst m. cbn [negb] in E1. injection E1 as <-. cbn [fst] in *.
          destruct far; auto. }
      destruct Q as (Q1 & Q2 & Q3). apply (IH w1 w'); auto.
  Qed.

  (** From a new SimOut: all the terrain is to be relaxed and there is no body. *)
  Theorem start_settles fuel ps (w w' : world G) :
    wide -> p_max_iterations P <> 0%nat -> ok w -> Forall legal ps ->
    (forall i j, interior g i j -> in_area (relax_area (fst w)) i j) -> equilibrium (fst w) = false ->
    watched fuel ps w ->
    run (A := ZNum upm) G g P fuel ps w = Ok w' -> kept (fst w) (fst w') ->
    settled (fst w').
  Proof.
    intros Hr Hn Hw Hps Ha E0 Wt E K.
    apply (run_settles fuel ps Hr Hn w w'); auto.
    - intros i j Hi _ N. destruct N. apply Ha, Hi.
    - intros _ i j Hi N. destruct N. apply Ha, Hi.
    - intros Q. congruence.
  Qed.
End Later.
