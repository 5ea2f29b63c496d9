(** Terrain relaxation without body: pairs of columns and convergence. *)
From Coq Require Import ZArith List Bool Lia Permutation.
From Verif Require Import Outcome Num State Base Spec InvBase ModelRelax RelaxBase
  RelaxTerrainProofs RelaxBodyProofs StructProofs EquilibriumProofs StatusProofs
  ModelBodySoil ModelBodyPos ModelUtils ModelStep AvalancheProofs Spec2 StepProofs.
Import ListNotations.
Open Scope Z_scope.

Section Pair.
  Context {upm : units}.
  Local Notation sim := (sim (ZNum upm)).
  Variable frame : Z -> Z -> Z -> Pos (ZNum upm).
  Variable g : grid_t (ZNum upm).
  Variables dh tol : Z.
  Local Notation cz := (cell_z g : Z).
  Local Notation level := (level (A := ZNum upm) g dh tol).

  Lemma level_bounds (a b : Z) : 0 < cz ->
    aligned cz (level a b) /\
    dh + a + b + 2 * tol - 2 * cz < 2 * level a b <= dh + a + b + 2 * tol.
  Proof.
    intros Hcz. unfold ModelRelax.level. zn.
    split; [exists ((dh + a + b + 2 * tol) / (2 * cz)); ring|].
    pose proof (Z.div_mod (dh + a + b + 2 * tol) (2 * cz) ltac:(lia)).
    pose proof (Z.mod_pos_bound (dh + a + b + 2 * tol) (2 * cz) ltac:(lia)). lia.
  Qed.

  (** The state after an avalanche towards a cell without body. *)
  Lemma relax_free_pair (s s' : sim) i j d :
    In d directions4 ->
    (forall k, layer k -> ~ body_at s k (i + fst d) (j + snd d)) ->
    relax_terrain_dir (A := ZNum upm) frame g dh tol i j d s = Ok s' ->
    let a := (terrain s i j : Z) in
    let b := (terrain s (i + fst d) (j + snd d) : Z) in
    on_grid s i j /\ on_grid s (i + fst d) (j + snd d) /\
    ((s' = s /\ a - dh <= b + tol) \/
     (b + tol < a - dh /\
      s' = set_t (A := ZNum upm) (set_t (A := ZNum upm) (set_equilibrium s false) i j (level a b))
             (i + fst d) (j + snd d) (a + b - level a b))).
  Proof.
    intros Hd Hb E a b. unfold relax_terrain_dir in E. cbv zeta in E.
    apply guard_ok in E as [Eg E]. apply andb_true_iff in Eg as [Gi Gc].
    apply inb_true in Gi, Gc. split; [auto|]. split; [auto|].
    destruct (directions4_neighbour d i j Hd) as (N & _ & _).
    set (ic := i + fst d) in *. set (jc := j + snd d) in *. zn.
    assert (A0 : body_absent s 0 ic jc = true) by (apply body_absent_true; apply Hb; left; auto).
    assert (A2 : body_absent s 2 ic jc = true) by (apply body_absent_true; apply Hb; right; auto).
    unfold check_unstable_terrain_cell in E. zn. rewrite A0, A2 in E. cbn [andb] in E.
    fold a b in E. destruct (Z.ltb_spec (b + tol) (a - dh)) as [Q|Q].
    - right. split; [auto|]. change (40 =? 0) with false in E. cbv iota in E.
      unfold relax_unstable_terrain_cell in E.
      change (40 mod 10 =? 0) with true in E. change (40 / 10 =? 4) with true in E.
      cbv iota zeta in E. inversion E. reflexivity.
    - left. cbn [Z.eqb] in E. inversion E. split; [auto|lia].
  Qed.

  (** Any heights. *)
  Theorem pair_slope (s s' : sim) i j d :
    0 < cz -> In d directions4 ->
    (forall k, layer k -> ~ body_at s k (i + fst d) (j + snd d)) ->
    relax_terrain_dir (A := ZNum upm) frame g dh tol i j d s = Ok s' ->
    let a := (terrain s i j : Z) in
    let b := (terrain s (i + fst d) (j + snd d) : Z) in
    let a' := (terrain s' i j : Z) in
    let b' := (terrain s' (i + fst d) (j + snd d) : Z) in
    (s' = s /\ a - dh <= b + tol) \/
    (b + tol < a - dh /\ a' + b' = a + b /\ aligned cz a' /\
     dh + 2 * tol - 2 * cz < a' - b' <= dh + 2 * tol /\
     2 * (a' - a) < tol /\ 2 * (b - b') < tol).
  Proof.
    intros Hcz Hd Hb E a b a' b'.
    destruct (relax_free_pair s s' i j d Hd Hb E) as (_ & _ & [[-> Q]|[Q Es]]); [left; auto|].
    right. fold a b in Q, Es. split; [exact Q|].
    destruct (directions4_neighbour d i j Hd) as (N & _ & _).
    destruct (level_bounds a b Hcz) as (L1 & L2).
    assert (Ea : a' = level a b).
    { unfold a'. rewrite Es. upds. eqbs; auto; try lia. exfalso; apply N; congruence. }
    assert (Eb : b' = a + b - level a b).
    { unfold b'. rewrite Es. upds. rewrite !Z.eqb_refl. reflexivity. }
    rewrite Ea, Eb. split; [lia|]. split; [auto|]. lia.
  Qed.

  (** Heights that are multiples of the cell height. *)
  Theorem pair_slope_aligned (s s' : sim) i j d :
    0 < tol -> 2 * tol < cz -> aligned cz dh -> In d directions4 ->
    (forall k, layer k -> ~ body_at s k (i + fst d) (j + snd d)) ->
    aligned cz (terrain s i j) -> aligned cz (terrain s (i + fst d) (j + snd d)) ->
    relax_terrain_dir (A := ZNum upm) frame g dh tol i j d s = Ok s' ->
    let a := (terrain s i j : Z) in
    let b := (terrain s (i + fst d) (j + snd d) : Z) in
    let a' := (terrain s' i j : Z) in
    let b' := (terrain s' (i + fst d) (j + snd d) : Z) in
    (s' = s /\ a - dh <= b) \/
    (b < a - dh /\ a' + b' = a + b /\ aligned cz a' /\ aligned cz b' /\
     dh - cz <= a' - b' <= dh /\ a' < a /\ b < b').
  Proof.
    intros Htol Hcz Adh Hd Hb Aa Ab E a b a' b'.
    destruct (relax_free_pair s s' i j d Hd Hb E) as (_ & _ & [[-> Q]|[Q Es]]).
    { left. split; [auto|]. fold a b in Q |- *.
      apply aligned_le with (cz := cz) (t := tol); auto; try lia.
      apply aligned_sub; auto. }
    right. fold a b in Q, Es. split; [lia|].
    destruct (directions4_neighbour d i j Hd) as (N & _ & _).
    destruct (level_facts g dh tol Htol Hcz Adh a b Aa Ab) as (L1 & L2 & L3).
    assert (Ea : a' = level a b).
    { unfold a'. rewrite Es. upds. eqbs; auto; try lia. exfalso; apply N; congruence. }
    assert (Eb : b' = a + b - level a b).
    { unfold b'. rewrite Es. upds. rewrite !Z.eqb_refl. reflexivity. }
    assert (b + cz <= a - dh) by (apply aligned_lt; auto; try apply aligned_sub; auto; lia).
    rewrite Ea, Eb. split; [lia|]. split; [auto|].
    split; [apply aligned_sub; auto; apply aligned_add; auto|]. lia.
  Qed.
End Pair.

(** Misaligned heights: the higher column may rise. *)
Theorem pair_rise_refuted :
  exists (dh tol : Z) (g : grid_t (ZNum (zunits 100))) (s s' : sim (ZNum (zunits 100))),
    0 < tol /\ 2 * tol < (cell_z g : Z) /\ aligned (cell_z g) dh /\
    (forall k i j, (body s k i j : Z) = 0) /\
    relax_terrain_dir (A := ZNum (zunits 100)) (fun _ _ _ => (0, 0, 0)) g dh tol 1 1 (1, 0) s = Ok s' /\
    (terrain s 1 1 : Z) < (terrain s' 1 1 : Z).
Proof.
  set (g := @mkGrid (ZNum (zunits 100)) 1 1 1 10 (fun k => 10 * k)).
  exists 0, 4, g.
  exists (set_t (A := ZNum (zunits 100)) (set_t (A := ZNum (zunits 100)) (new_sim g (fun _ _ => O) []) 1 1 9) 2 1 4).
  eexists. split; [lia|]. split; [cbn; lia|]. split; [exists 0; lia|].
  split; [reflexivity|]. split; [vm_compute; reflexivity|]. vm_compute. reflexivity.
Qed.

(** ** Convergence *)

Section Converge.
  Context {upm : units}.
  Local Notation sim := (sim (ZNum upm)).
  Variable G : geom (ZNum upm).
  Variable g : grid_t (ZNum upm).
  Variable P : params (ZNum upm).
  Variable p : pose G.
  Hypothesis HP : params_ok g P.
  Local Notation cz := (cell_z g : Z).
  Local Notation dh := (p_dh_max P : Z).
  Local Notation tol := (p_tol P : Z).
  Hypothesis Hslope : cz <= dh.

  (** No body and no soil but the terrain. *)
  Definition bare (s : sim) : Prop :=
    3 <= nx s /\ 3 <= ny s /\
    (forall k i j, on_grid s i j -> (body s k i j : Z) = 0 /\ (body_soil s k i j : Z) = 0) /\
    (forall i j, on_grid s i j -> aligned cz (terrain s i j)) /\ records s = [].

  (** Sum of the squares of the heights. *)
  Definition squares (s : sim) : Z :=
    sum2 (nx s) (ny s) (fun i j => (terrain s i j : Z) * (terrain s i j : Z)).

  Lemma squares_nonneg s : 0 <= squares s.
  Proof. apply sum2_nonneg. intros. apply Z.square_nonneg. Qed.

  Definition lowers (s s' : sim) : Prop :=
    bare s' /\ nx s' = nx s /\ ny s' = ny s /\ squares s' <= squares s /\
    (equilibrium s = true -> equilibrium s' = false -> squares s' < squares s).

  Lemma lowers_trans s1 s2 s3 : lowers s1 s2 -> lowers s2 s3 -> lowers s1 s3.
  Proof.
    intros (A1 & A2 & A3 & A4 & A5) (B1 & B2 & B3 & B4 & B5).
    split; [auto|]. split; [congruence|]. split; [congruence|]. split; [lia|].
    intros E1 E3. destruct (equilibrium s2) eqn:E2.
    - specialize (B5 eq_refl E3). lia.
    - specialize (A5 E1 eq_refl). lia.
  Qed.

  Lemma lowers_same s s' : bare s ->
    nx s' = nx s -> ny s' = ny s -> terrain s' = terrain s -> body s' = body s ->
    body_soil s' = body_soil s -> records s' = records s -> equilibrium s' = equilibrium s ->
    lowers s s'.
  Proof.
    intros B E1 E2 E3 E4 E5 E6 E7. unfold lowers, bare, squares, on_grid in *.
    rewrite E1, E2, E3, E4, E5, E6, E7. split; [auto|]. split; [auto|]. split; [auto|].
    split; [lia|]. intros Q1 Q2. congruence.
  Qed.

  Lemma relax_terrain_dir_lowers frame s i j d :
    bare s -> In d directions4 ->
    partial (relax_terrain_dir (A := ZNum upm) frame g dh tol i j d s) (lowers s).
  Proof.
    destruct HP as (P1 & P2 & P3 & P4 & _).
    intros (Nx & Ny & Bb & Bt & Br) Hd.
    destruct (relax_terrain_dir (A := ZNum upm) frame g dh tol i j d s) as [s'| |] eqn:E;
      [|exact I|exact I]. cbn [partial].
    assert (Gs : on_grid s i j /\ on_grid s (i + fst d) (j + snd d)).
    { unfold relax_terrain_dir in E. cbv zeta in E. apply guard_ok in E as [Eg _].
      apply andb_true_iff in Eg as [Gi Gc]. apply inb_true in Gi, Gc. auto. }
    destruct Gs as [Gi Gc].
    assert (Free : forall k, layer k -> ~ body_at s k (i + fst d) (j + snd d)).
    { intros k _ [H|H]; apply H; apply Bb; auto. }
    pose proof (pair_slope_aligned frame g dh tol s s' i j d P1 P2 P4 Hd Free (Bt _ _ Gi)
      (Bt _ _ Gc) E) as PS.
    destruct (relax_free_pair frame g dh tol s s' i j d Hd Free E)
      as (_ & _ & [[-> _]|[Q Es]]).
    { apply lowers_same; auto. repeat (split; [auto|]); auto. }
    destruct (directions4_neighbour d i j Hd) as (N & _ & _).
    set (ic := i + fst d) in *. set (jc := j + snd d) in *.
    cbv zeta in PS.
    destruct PS as [[_ PS]|(S1 & S2 & S3 & S4 & S5 & S6 & S7)]; [lia|].
    assert (Oth : forall i' j', (i', j') <> (i, j) -> (i', j') <> (ic, jc) ->
      terrain s' i' j' = terrain s i' j').
    { intros i' j' N1 N2. rewrite Es. upds. eqbs; auto; exfalso; congruence. }
    assert (Dm : nx s' = nx s /\ ny s' = ny s /\ body s' = body s /\
                 body_soil s' = body_soil s /\ records s' = records s)
      by (rewrite Es; repeat split).
    destruct Dm as (D1 & D2 & D3 & D4 & D5).
    assert (Lt : squares s' < squares s).
    { unfold squares. rewrite D1, D2. unfold on_grid in *.
      rewrite (sum2_change2 (nx s) (ny s)
        (fun i j => (terrain s' i j : Z) * (terrain s' i j : Z))
        (fun i j => (terrain s i j : Z) * (terrain s i j : Z)) i j ic jc); try tauto; cycle 1.
      - intros i' j' _ _ N1 N2. rewrite Oth; auto.
      - set (a := terrain s i j : Z) in *. set (b := terrain s ic jc : Z) in *.
        set (a' := terrain s' i j : Z) in *. set (b' := terrain s' ic jc : Z) in *.
        assert (Hh : exists h, a' = a - h /\ b' = b + h /\ 0 < h /\ 2 * h <= a - b).
        { exists (a - a'). lia. }
        destruct Hh as (h & -> & -> & H1 & H2). nia. }
    split; [|split; [auto|split; [auto|split; [lia|auto]]]].
    unfold bare, on_grid in *. rewrite D1, D2, D3, D4, D5.
    split; [auto|]. split; [auto|]. split; [auto|]. split; [|auto].
    intros i' j' H'.
    destruct (Z.eq_dec i' i) as [Ei|Ei]; [destruct (Z.eq_dec j' j) as [Ej|Ej];
      [subst; auto|]|].
    all: destruct (Z.eq_dec i' ic) as [Ei'|Ei']; [destruct (Z.eq_dec j' jc) as [Ej'|Ej'];
      [rewrite Ei', Ej'; auto|]|].
    all: rewrite Oth by congruence; auto.
  Qed.

  Lemma relax_terrain_cell_lowers frame s0 c st :
    Permutation (snd st) directions4 -> lowers s0 (fst (fst st)) ->
    partial (relax_terrain_cell (A := ZNum upm) frame g dh tol c st)
      (fun st' => Permutation (snd st') directions4 /\ lowers s0 (fst (fst st'))).
  Proof.
    destruct st as [[s box] dirs], c as [i j]. cbn [fst snd]. intros Pd L.
    unfold relax_terrain_cell. destruct (shuffle dirs (rng s)) as [dirs' r] eqn:Sh.
    apply shuffle_eq in Sh.
    assert (P' : Permutation dirs' directions4) by (rewrite Sh; auto).
    eapply partial_bind with (P := lowers s0).
    - apply for_each_partial.
      + intros d s1 Hd L1.
        pose proof (relax_terrain_dir_lowers frame s1 i j d (proj1 L1)
          (Permutation_in _ P' Hd)) as Q.
        eapply partial_weaken; [exact Q|]. cbv beta. intros s2 L2.
        eapply lowers_trans; eauto.
      + eapply lowers_trans; [exact L|]. apply lowers_same; auto. apply L.
    - intros s' L'. cbn [partial fst snd]. auto.
  Qed.

  Lemma relax_terrain_lowers frame s :
    bare s ->
    partial (relax_terrain (A := ZNum upm) frame g dh (p_cell_buffer P) tol s)
      (fun s' => bare s' /\ squares s' <= squares s /\
                 (equilibrium s' = false -> squares s' < squares s)).
  Proof.
    intros B. set (s0 := set_equilibrium s true).
    assert (B0 : bare s0) by exact B.
    assert (Fin : forall s', lowers s0 s' -> bare s' /\ squares s' <= squares s /\
                 (equilibrium s' = false -> squares s' < squares s)).
    { intros s' (L1 & _ & _ & L2 & L3). split; [auto|]. split; [auto|]. apply L3. reflexivity. }
    assert (L0 : lowers s0 s0) by (apply lowers_same; auto).
    unfold relax_terrain. fold s0.
    eapply partial_bind with (P := fun _ => True).
    { destruct (locate_unstable_terrain_cell _ _ _); exact I. }
    intros cells _. destruct cells as [|c cells]; [apply Fin; auto|].
    destruct (shuffle (c :: cells) (rng s0)) as [cells' r] eqn:Sh.
    eapply partial_bind with
      (P := fun st => Permutation (snd st) directions4 /\ lowers s0 (fst (fst st))).
    - apply for_each_partial.
      + intros c' st _ [Q1 Q2]. apply relax_terrain_cell_lowers; auto.
      + cbn [fst snd]. split; [auto|]. apply lowers_same; auto.
    - intros [[s1 box] dirs] [_ L1]. cbn [fst snd] in L1.
      do 4 (eapply partial_bind with (P := fun _ => True);
            [destruct (chk_int _); exact I|intros ? _]).
      cbn [partial]. apply Fin. eapply lowers_trans; [exact L1|].
      apply lowers_same; auto. apply L1.
  Qed.

  Lemma relax_round_lowers s :
    bare s ->
    partial (relax_round (A := ZNum upm) G g P p s)
      (fun s' => bare s' /\ squares s' <= squares s /\
                 (equilibrium s' = false -> squares s' < squares s)).
  Proof.
    intros B. unfold relax_round.
    eapply partial_bind; [apply relax_terrain_lowers; exact B|]. cbv beta.
    intros s1 (B1 & L1 & L2). unfold shuffle_records.
    assert (R1 : records s1 = []) by apply B1. rewrite R1. cbn [shuffle length shuffle_from Nat.sub].
    unfold relax_body_soil. cbn [records set_rng set_records length seq for_each bind partial].
    split; [|split; auto].
    unfold bare, on_grid in *. cbn. destruct B1 as (? & ? & ? & ? & ?). auto.
  Qed.

  Local Notation near := (fun _ : Pos (ZNum upm) => True).

  (** A bare state is fine whatever the pose. *)
  Lemma bare_loop_ok (s : sim) :
    bare s -> sized g s -> within_grid g (body_area s) -> within_grid g (relax_area s) ->
    loop_ok g G near p s.
  Proof.
    intros (N1 & N2 & B & T & R) Hs H1 H2.
    assert (NB : forall k i j, on_grid s i j -> ~ body_at s k i j).
    { intros k i j H [Q|Q]; apply Q; apply B; auto. }
    assert (NS : forall k i j, on_grid s i j -> ~ soil_on s k i j).
    { intros k i j H [Q|Q]; apply Q; apply B; auto. }
    unfold loop_ok. split; [|split; [auto|]].
    - split; [|split; [|split]].
      + split; [auto|]. split; [auto|]. split.
        * intros i j Hij. split; [|split].
          -- split; [auto|]. intros k _. destruct (B k i j Hij) as [-> ->].
             split; apply aligned_0.
          -- split; intros; exfalso; eapply NB; eauto.
          -- intros k Hk. split; [intros Q; exfalso; eapply NS; eauto|].
             unfold soil_height. rewrite R. cbn [recorded].
             destruct (B k i j Hij) as [_ ->]. destruct (B (k + 1) i j Hij) as [_ ->]. lia.
        * rewrite R. constructor.
      + intros i j k Hij _ Q. exfalso; eapply NB; eauto.
      + intros i j k Hij _ Q. exfalso; eapply NS; eauto.
      + intros i j k Hij Hk Q. exfalso; eapply NB; eauto.
    - split; apply (within_grid_in g s); auto.
  Qed.

  (** Whatever the draws of the generator, equilibrium is reached. *)
  Theorem relax_converges (s : sim) :
    bare s -> sized g s -> within_grid g (body_area s) -> within_grid g (relax_area s) ->
    equilibrium s = false ->
    forall n, (Z.to_nat (squares s) < n)%nat ->
    exists s', relax_loop (A := ZNum upm) G g P p n s = Ok s' /\
      equilibrium s' = true /\ at_rest P s' /\ bare s' /\ total_soil s' = total_soil s.
  Proof.
    intros B Hs H1 H2 E0 n Hn.
    pose proof (bare_loop_ok s B Hs H1 H2) as L.
    assert (Main : forall n s, bare s -> loop_ok g G near p s ->
      (Z.to_nat (squares s) < n)%nat -> equilibrium s = false ->
      exists s', relax_loop (A := ZNum upm) G g P p n s = Ok s' /\
        equilibrium s' = true /\ at_rest P s' /\ bare s' /\ total_soil s' = total_soil s).
    { clear s B Hs H1 H2 E0 n Hn L. induction n as [|n IH]; intros s B L Hn E; [lia|].
      cbn [relax_loop]. rewrite E.
      pose proof (relax_round_good g G near P HP p s L) as R.
      pose proof (relax_round_lowers s B) as Lw.
      destruct (relax_round G g P p s) as [s1| |] eqn:Er; cbn [returns partial] in R, Lw;
        [|tauto|tauto].
      destruct R as (L1 & Fl). destruct Lw as (B1 & Q1 & Q2).
      cbn [bind].
      destruct (equilibrium s1) eqn:E1.
      - exists s1. split.
        { destruct n; cbn [relax_loop]; [auto|rewrite E1; auto]. }
        split; [auto|]. split; [eapply relax_round_rest; eauto|]. split; [auto|].
        apply Fl.
      - specialize (Q2 eq_refl). pose proof (squares_nonneg s1).
        destruct (IH s1 B1 L1) as (s' & R1 & R2 & R3 & R4 & R5); [lia|auto|].
        exists s'. split; [auto|]. split; [auto|]. split; [auto|]. split; [auto|].
        rewrite R5. apply Fl. }
    apply Main; auto.
  Qed.
End Converge.

(** With a zero slope, relaxation may never end, whatever the draws. *)
Section Swap.
  Context {upm : units}.
  Local Notation sim := (sim (ZNum upm)).
  Variable G : geom (ZNum upm).
  Variable g : grid_t (ZNum upm).
  Variable P : params (ZNum upm).
  Variable p : pose G.
  Hypothesis HP : params_ok g P.
  Hypothesis Hx : half_x g = 2.
  Hypothesis Hy : half_y g = 1.
  Hypothesis Hdh : (p_dh_max P : Z) = 0.
  Local Notation cz := (cell_z g : Z).
  Local Notation tol := (p_tol P : Z).

  (** A 5 x 3 terrain of height [cz] but for a trench of two cells inside. *)
  Definition trench (q i j : Z) : Z :=
    if (1 <=? i) && (i <=? 3) && (j =? 1) && negb (i =? q) then 0 else cz.

  Definition wandering (s : sim) : Prop :=
    nx s = 5 /\ ny s = 3 /\ records s = [] /\
    (forall k i j, on_grid s i j -> (body s k i j : Z) = 0 /\ (body_soil s k i j : Z) = 0) /\
    exists q, 1 <= q <= 3 /\ forall i j, on_grid s i j -> (terrain s i j : Z) = trench q i j.

  Lemma wandering_same s s' : wandering s ->
    nx s' = nx s -> ny s' = ny s -> terrain s' = terrain s -> body s' = body s ->
    body_soil s' = body_soil s -> records s' = records s -> wandering s'.
  Proof.
    intros H E1 E2 E3 E4 E5 E6. unfold wandering, on_grid in *.
    rewrite E1, E2, E3, E4, E5, E6. exact H.
  Qed.

  Lemma swap_level : ModelRelax.level (A := ZNum upm) g (p_dh_max P) tol cz 0 = 0.
  Proof.
    destruct HP as (P1 & P2 & _). unfold ModelRelax.level. zn. rewrite Hdh.
    rewrite (Z.div_small (0 + cz + 0 + 2 * tol) (2 * cz)); lia.
  Qed.

  Lemma swap_dir frame s i j d :
    wandering s -> 1 <= i <= 3 -> j = 1 -> In d directions4 ->
    partial (relax_terrain_dir (A := ZNum upm) frame g (p_dh_max P) tol i j d s) wandering.
  Proof.
    destruct HP as (P1 & P2 & _).
    intros (Nx & Ny & R & B & q & Hq & T) Hi -> Hd.
    destruct (relax_terrain_dir (A := ZNum upm) frame g (p_dh_max P) tol i 1 d s)
      as [s'| |] eqn:E; [|exact I|exact I]. cbn [partial].
    assert (Gs : on_grid s i 1 /\ on_grid s (i + fst d) (1 + snd d)).
    { unfold relax_terrain_dir in E. cbv zeta in E. apply guard_ok in E as [Eg _].
      apply andb_true_iff in Eg as [Gi Gc]. apply inb_true in Gi, Gc. auto. }
    destruct Gs as [Gi Gc].
    assert (Free : forall k, layer k -> ~ body_at s k (i + fst d) (1 + snd d)).
    { intros k _ [H|H]; apply H; apply B; auto. }
    destruct (relax_free_pair frame g (p_dh_max P) tol s s' i 1 d Hd Free E)
      as (_ & _ & [[-> _]|[Q Es]]).
    { split; [auto|]. split; [auto|]. split; [auto|]. split; [auto|]. exists q; auto. }
    rewrite Hdh in Q.
    rewrite (T _ _ Gi), (T _ _ Gc) in Q, Es.
    assert (V : i = q /\ trench q i 1 = cz /\ trench q (i + fst d) (1 + snd d) = 0 /\
                1 <= i + fst d <= 3 /\ 1 + snd d = 1).
    { unfold trench in Q |- *. revert Q. unfold directions4 in Hd. cbn [In] in Hd.
      destruct Hd as [<-|[<-|[<-|[<-|[]]]]]; cbn [fst snd];
      repeat match goal with
      | |- context [?a <=? ?b] => destruct (Z.leb_spec a b); cbn [andb negb]
      | |- context [?a =? ?b] => destruct (Z.eqb_spec a b); cbn [andb negb]
      end; lia. }
    destruct V as (Eq & V1 & V2 & V3 & V4).
    rewrite V1, V2, swap_level in Es. rewrite V4 in *.
    assert (Dm : nx s' = nx s /\ ny s' = ny s /\ body s' = body s /\
                 body_soil s' = body_soil s /\ records s' = records s)
      by (rewrite Es; repeat split).
    destruct Dm as (D1 & D2 & D3 & D4 & D5).
    unfold wandering, on_grid in *. rewrite D1, D2, D3, D4, D5.
    do 4 (split; [auto|]). exists (i + fst d). split; [auto|].
    intros i' j' H'. rewrite Es. upds. zn. rewrite (T i' j' H').
    assert (Ne : i + fst d <> i).
    { intros Z0. rewrite Z0 in V2. congruence || (rewrite V1 in V2; lia). }
    unfold trench. subst q.
    destruct (Z.eqb_spec i' (i + fst d)) as [E1|E1], (Z.eqb_spec j' 1) as [E2|E2],
      (Z.eqb_spec i' i) as [E3|E3], (Z.leb_spec 1 i'), (Z.leb_spec i' 3);
      cbn [andb negb]; lia.
  Qed.

  Lemma swap_terrain frame s :
    wandering s -> impact_area s = mkArea 1 4 1 2 ->
    partial (relax_terrain (A := ZNum upm) frame g (p_dh_max P) (p_cell_buffer P) tol s)
      wandering.
  Proof.
    intros W HI. set (s0 := set_equilibrium s true).
    assert (W0 : wandering s0) by (eapply wandering_same; eauto).
    unfold relax_terrain. fold s0.
    eapply partial_bind; [apply (locate_in (A := ZNum upm))|]. cbv beta.
    intros cells Hc. destruct cells as [|c cells]; [exact W0|].
    destruct (shuffle (c :: cells) (rng s0)) as [cells' r] eqn:Sh. apply shuffle_eq in Sh.
    assert (Hc' : forall c', In c' cells' -> 1 <= fst c' <= 3 /\ snd c' = 1).
    { intros c' H. apply (Permutation_in _ Sh) in H. apply Hc in H.
      unfold s0, in_area in H. cbn [impact_area set_equilibrium] in H. rewrite HI in H.
      cbn [x_lo x_hi y_lo y_hi] in H. lia. }
    eapply partial_bind with
      (P := fun st => Permutation (snd st) directions4 /\ wandering (fst (fst st))).
    - apply for_each_partial.
      + intros [i j] [[s1 box] dirs] Hin [Q1 Q2]. cbn [fst snd] in *.
        destruct (Hc' _ Hin) as [Hi Hj]. cbn [fst snd] in Hi, Hj.
        unfold relax_terrain_cell. destruct (shuffle dirs (rng s1)) as [dirs' r'] eqn:Sd.
        apply shuffle_eq in Sd.
        assert (P' : Permutation dirs' directions4) by (rewrite Sd; auto).
        eapply partial_bind with (P := wandering).
        * apply for_each_partial.
          -- intros d s2 Hd W2. apply swap_dir; auto. eapply Permutation_in; eauto.
          -- eapply wandering_same; eauto.
        * intros s2 W2. cbn [partial fst snd]. auto.
      + cbn [fst snd]. split; [auto|]. eapply wandering_same; eauto.
    - intros [[s1 box] dirs] [_ W1]. cbn [fst snd] in W1.
      do 4 (eapply partial_bind with (P := fun _ => True);
            [destruct (chk_int _); exact I|intros ? _]).
      cbn [partial]. eapply wandering_same; eauto.
  Qed.

  Definition swap_ok (s : sim) : Prop :=
    wandering s /\ body_area s = mkArea 1 4 1 2 /\ within_grid g (relax_area s).

  Lemma swap_bare s : wandering s -> bare g s.
  Proof.
    intros (Nx & Ny & R & B & q & Hq & T). unfold bare.
    split; [lia|]. split; [lia|]. split; [auto|]. split; [|auto].
    intros i j Hij. rewrite (T i j Hij). unfold trench.
    destruct (_ && _); [apply aligned_0|exists 1; lia].
  Qed.

  Lemma swap_falls s : wandering s -> exists i d,
    1 <= i <= 3 /\ In d directions4 /\
    terrain_falls (p_dh_max P) tol s i 1 (i + fst d) (1 + snd d).
  Proof.
    destruct HP as (P1 & P2 & _).
    intros (Nx & Ny & R & B & q & Hq & T).
    assert (F : forall d, 1 <= q + fst d <= 3 -> fst d <> 0 -> snd d = 0 ->
      terrain_falls (p_dh_max P) tol s q 1 (q + fst d) (1 + snd d)).
    { intros d H1 H0 H2. rewrite H2. change (1 + 0) with 1.
      assert (G0 : on_grid s q 1) by (unfold on_grid; lia).
      assert (G1 : on_grid s (q + fst d) 1) by (unfold on_grid; lia).
      assert (T0 : (terrain s q 1 : Z) = cz).
      { rewrite (T q 1 G0). unfold trench. rewrite (Z.eqb_refl q).
        rewrite andb_false_r. reflexivity. }
      assert (T1 : (terrain s (q + fst d) 1 : Z) = 0).
      { rewrite (T _ 1 G1). unfold trench.
        destruct (Z.leb_spec 1 (q + fst d)), (Z.leb_spec (q + fst d) 3),
          (Z.eqb_spec (q + fst d) q); cbn [andb negb Z.eqb Pos.eqb]; lia. }
      unfold terrain_falls. rewrite T0, T1, Hdh. split; [lia|].
      exists 0. split.
      - left. split; [auto|]. intros k _ [H|H]; exfalso; apply H; apply B; auto.
      - unfold surface. cbn [Z.eqb]. rewrite T1. lia. }
    destruct (Z.eq_dec q 3) as [->|N].
    - exists 3, (-1, 0). split; [lia|]. split; [right; left; auto|]. apply F; cbn; lia.
    - exists q, (1, 0). split; [lia|]. split; [left; auto|]. apply F; cbn [fst snd]; lia.
  Qed.

  Lemma swap_round s : swap_ok s ->
    returns (relax_round (A := ZNum upm) G g P p s)
      (fun s' => swap_ok s' /\ equilibrium s' = false).
  Proof.
    intros (W & HB & HR).
    assert (Hs : sized g s).
    { destruct W as (Nx & Ny & _). unfold sized. rewrite Hx, Hy. auto. }
    assert (L : loop_ok g G (fun _ => True) p s).
    { apply bare_loop_ok; auto; [apply swap_bare; auto|].
      unfold within_grid. rewrite HB, Hx, Hy. cbn. lia. }
    pose proof (relax_round_good g G (fun _ => True) P HP p s L) as R.
    destruct (relax_round G g P p s) as [s'| |] eqn:E; cbn [returns] in R |- *; [|tauto|tauto].
    destruct R as ((L1 & L2 & L3 & L4) & Fl).
    set (s0 := update_impact_area s).
    assert (I0 : impact_area s0 = mkArea 1 4 1 2).
    { unfold s0. cbn [impact_area update_impact_area set_impact_area]. rewrite HB.
      unfold within_grid in HR. rewrite Hx, Hy in HR. cbn [x_lo x_hi y_lo y_hi].
      f_equal; lia. }
    pose proof E as E'. unfold relax_round in E'. fold s0 in E'.
    apply bind_ok in E' as (s1 & E1 & E2).
    assert (W1 : wandering s1).
    { apply (partial_ok _ _ _ (swap_terrain _ s0 ltac:(eapply wandering_same; eauto) I0) E1). }
    pose proof (partial_ok _ _ _ (relax_terrain_only (A := ZNum upm) (g_frame G p) g
      (p_dh_max P) tol (p_cell_buffer P) s0) E1) as (_ & _ & _ & _ & IT & _).
    assert (R1 : records s1 = []) by apply W1.
    unfold shuffle_records in E2. rewrite R1 in E2.
    cbn [shuffle length shuffle_from Nat.sub] in E2.
    unfold relax_body_soil in E2.
    cbn [records set_rng set_records length seq for_each bind] in E2.
    injection E2 as E3.
    assert (W' : wandering s') by (rewrite <- E3; eapply wandering_same; eauto).
    split; [split; [auto|split]|].
    - destruct Fl as (_ & _ & -> & _). auto.
    - apply (within_grid_in g s' _ L2). exact L4.
    - destruct (equilibrium s') eqn:Q; [exfalso|reflexivity].
      destruct (relax_round_rest G g P p s s' E Q) as ((AR & _) & _).
      destruct (swap_falls s' W') as (i & d & Hi & Hd & F).
      apply (AR i 1 d); [|apply beside_directions4; exact Hd|exact F].
      assert (I' : impact_area s' = mkArea 1 4 1 2).
      { rewrite <- E3. cbn. rewrite IT. auto. }
      rewrite I'. unfold in_area. cbn. lia.
  Qed.

  Theorem swap_forever n : forall s, swap_ok s -> equilibrium s = false ->
    exists s', relax_loop (A := ZNum upm) G g P p n s = Ok s' /\
      equilibrium s' = false /\ swap_ok s'.
  Proof.
    induction n as [|n IH]; intros s H E; cbn [relax_loop].
    - exists s. auto.
    - rewrite E. pose proof (swap_round s H) as R.
      destruct (relax_round G g P p s) as [s1| |]; cbn [returns bind] in *; [|tauto|tauto].
      destruct R. apply IH; auto.
  Qed.
End Swap.
