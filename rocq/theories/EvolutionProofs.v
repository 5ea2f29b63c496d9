(** Init with its noise, and the default run of the example program from Init to its end. *)
From Coq Require Import Reals ZArith NArith List Bool String Lra Lia Permutation.
From Verif Require Import Outcome Num Base Flt FltR FltRFacts State Spec Spec2 InvBase RelaxBase
  ModelTypes ModelGeometry ModelBodySoil ModelBodyPos ModelUtils ModelStep ModelRaster ModelNoise
  ModelWhole ModelFiles ModelExample ModelCheckLoop ModelOutputs ModelEvolution SpecGeo PoseProofs
  TypesProofs InsideProofs GeoClaims NoiseProofs NoiseSum StepProofs CheckProofs InitProofs RunProofs
  PropLemmas BodySoilProofs WholeProofs WholeClaims FilesProofs FilesClaims LockBound FloorProofs ExampleProofs
  ExampleLoop ExampleRun CheckLoopProofs CheckLoopClaims OutputProofs OutputClaims.
Import ListNotations.
Open Scope Z_scope.

Lemma for_each_fold {X S} (f : X -> S -> outcome S) (h : S -> X -> S) l :
  (forall x s, In x l -> f x s = Ok (h s x)) -> forall s, for_each l f s = Ok (fold_left h l s).
Proof.
  induction l as [|x l IH]; intros H s; cbn [for_each fold_left]; [reflexivity|].
  rewrite H by (left; reflexivity). cbn [bind]. apply IH. intros y s' Hy. apply H. right; exact Hy.
Qed.

(** ** Init *)
Section Init.
  Variables (t cz : Z) (g : rgrid) (amp : R).
  Hypothesis Ht : 0 < t.
  Hypothesis Hcz : 0 < cz.
  Hypothesis Hm : metres t cz = g_cell_z g.
  Notation wg := (wgrid t g cz).
  Local Notation sim := (sim (ZNum (wunits t))).

  (** The noise as a function, as [init] expects it. *)
  Definition tick_noise (table : list nat) (i j : Z) : Z :=
    match cell_noise (K := FltR) g amp (map Z.of_nat table) i j with
    | Ok h => ticks t h
    | _ => 0
    end.

  Lemma ticks_cells n : ticks t (g_cell_z g * IZR n) = cz * n.
  Proof.
    unfold ticks. rewrite <- Hm. unfold metres.
    assert (IZR t <> 0)%R by (apply not_0_IZR; lia).
    replace (IZR cz / IZR t * IZR n * IZR t)%R with (IZR (cz * n)) by (rewrite mult_IZR; field; assumption).
    apply zround_IZR.
  Qed.

  Lemma cell_pos : (0 < g_cell_z g)%R.
  Proof.
    rewrite <- Hm. unfold metres. apply Rdiv_lt_0_compat; apply IZR_lt; assumption.
  Qed.

  Lemma snap_cells n : cz * round_half_away (cz * n) cz = cz * n.
  Proof.
    apply (cells_in_aligned cz Hcz). exists n. zn. lia.
  Qed.

  Lemma tick_noise_bound table i j :
    (Rabs (metres t (tick_noise table i j)) <= 45 / 256 * Rabs amp + g_cell_z g / 2)%R.
  Proof.
    assert (Nt : (IZR t <> 0)%R) by (apply not_0_IZR; lia).
    assert (P0 : (0 <= 45 / 256 * Rabs amp + g_cell_z g / 2)%R).
    { pose proof (Rabs_pos amp). pose proof cell_pos. lra. }
    assert (Z0 : (Rabs (metres t 0) <= 45 / 256 * Rabs amp + g_cell_z g / 2)%R).
    { replace (metres t 0) with 0%R by (unfold metres; field; exact Nt). rewrite Rabs_R0. exact P0. }
    unfold tick_noise.
    destruct (cell_noise (K := FltR) g amp (map Z.of_nat table) i j) as [h| |] eqn:E; [|exact Z0|exact Z0].
    destruct (cell_noise_small g amp _ i j h cell_pos E) as (n & -> & B).
    rewrite ticks_cells.
    replace (metres t (cz * n)) with (g_cell_z g * IZR n)%R; [exact B|].
    rewrite <- Hm. unfold metres. rewrite mult_IZR. field. exact Nt.
  Qed.

  Hypothesis Hg : exists sx sy sz cxy c, rnew_grid sx sy sz cxy c = Built g.

  Lemma tick_noise_at r i j : (0 <= i <= 2 * g_half_x g)%Z -> (0 <= j <= 2 * g_half_y g)%Z ->
    exists n, cell_noise (K := FltR) g amp (map Z.of_nat (fst (perm_table r))) i j = Ok (g_cell_z g * IZR n)%R /\
      tick_noise (fst (perm_table r)) i j = cz * n.
  Proof.
    intros Hi Hj. destruct Hg as (sx & sy & sz & cxy & c & B).
    destruct (init_noise_ok sx sy sz cxy c g amp r i j B Hi Hj) as (n & E).
    exists n. split; [exact E|]. unfold tick_noise. rewrite E. apply ticks_cells.
  Qed.

  Lemma whole_init_eq (s : sim) : nx s = 2 * g_half_x g + 1 -> ny s = 2 * g_half_y g + 1 ->
    whole_init t g amp s = Ok (init (A := ZNum (wunits t)) wg tick_noise s).
  Proof.
    intros Nx Ny. unfold whole_init, init. destruct (perm_table (rng s)) as [table r] eqn:E.
    assert (Et : table = fst (perm_table (rng s))) by (rewrite E; reflexivity).
    unfold init_terrain. change (all_cells (set_rng s r)) with (all_cells s).
    apply for_each_fold. intros [i j] s' Hin. cbn [fst snd].
    unfold all_cells in Hin. rewrite in_area_cells in Hin. unfold in_area in Hin. cbn in Hin.
    destruct (tick_noise_at (rng s) i j ltac:(lia) ltac:(lia)) as (n & En & Tn).
    rewrite <- Et in En, Tn. rewrite En. cbn [bind]. do 2 f_equal.
    rewrite Tn, ticks_cells. symmetry. zn. apply snap_cells.
  Qed.

  (** What Init leaves. *)
  Lemma whole_init_spec (s : sim) : nx s = 2 * g_half_x g + 1 -> ny s = 2 * g_half_y g + 1 ->
    exists s', whole_init t g amp s = Ok s' /\ same_but_terrain s s' /\
    forall i j, on_grid s i j -> exists h n,
      cell_noise (K := FltR) g amp (map Z.of_nat (fst (perm_table (rng s)))) i j = Ok h /\
      (terrain s' i j : Z) = cz * n /\ metres t (terrain s' i j) = h /\
      (Rabs h <= 45 / 256 * Rabs amp + g_cell_z g / 2)%R.
  Proof.
    intros Nx Ny. rewrite (whole_init_eq s Nx Ny). eexists. split; [reflexivity|].
    unfold init. destruct (perm_table (rng s)) as [table r] eqn:E. cbn [fst]. unfold init_terrain.
    destruct (fold_set_t (A := ZNum (wunits t)) (fun i j => f_snap (n := ZNum (wunits t)) (tick_noise table i j) (cell_z wg))
      (all_cells (set_rng s r)) (set_rng s r)) as (E1 & _ & E3).
    split; [exact E1|]. intros i j [Qi Qj].
    destruct (tick_noise_at (rng s) i j ltac:(lia) ltac:(lia)) as (n & En & Tn).
    rewrite E in En, Tn. cbn [fst] in En, Tn. exists (g_cell_z g * IZR n)%R, n.
    split; [exact En|].
    assert (T : (terrain (fold_left (fun s c => set_t (A := ZNum (wunits t)) s (fst c) (snd c)
      (f_snap (n := ZNum (wunits t)) (tick_noise table (fst c) (snd c)) (cell_z wg))) (all_cells (set_rng s r)) (set_rng s r)) i j : Z)
      = cz * n).
    { destruct (E3 i j) as [E4 _]. rewrite E4.
      - rewrite Tn. zn. apply snap_cells.
      - unfold all_cells. rewrite in_area_cells. unfold in_area. cbn. lia. }
    split; [exact T|]. split.
    - rewrite T, <- Hm. unfold metres. rewrite mult_IZR. field. apply not_0_IZR. lia.
    - destruct (cell_noise_small g amp _ i j _ cell_pos En) as (n' & _ & B). exact B.
  Qed.
End Init.

(** ** The loop keeps what a run keeps, with or without Checks and files *)
Lemma check_warns {A : Num} (g : grid_t A) (P : params A) v (s s' : State.sim A) ab :
  check g P v s = Ok (s', ab) -> exists new, s' = fold_left warn new s /\ ~ In WRemoved new.
Proof.
  assert (Soil : forall l (s1 s2 : State.sim A) b, check_soil_loop (p_tol P) l s1 = Ok (s2, b) ->
    s2 = s1 \/ s2 = warn s1 WSoil).
  { induction l as [|[i j] l IH]; intros s1 s2 b E; cbn [check_soil_loop] in E.
    - inversion E; auto.
    - unfold guard in E. destruct (inb s1 i j); [|discriminate].
      destruct (cell_ok (p_tol P) s1 i j); [eapply IH; eauto|inversion E; auto]. }
  unfold check. intros E. apply bind_ok in E as ([s1 a] & E1 & E).
  apply bind_ok in E as ([s2 b] & E2 & E). inversion E; subst s2. clear E.
  assert (V : s1 = s \/ exists x, s1 = warn s x /\ x <> WRemoved).
  { unfold check_volume in E1. apply bind_ok in E1 as (f & _ & E1).
    destruct (existsb _ _) in E1; [inversion E1; subst; right; eexists; split; [reflexivity|discriminate]|].
    apply bind_ok in E1 as (tv & _ & E1). apply bind_ok in E1 as (bv & _ & E1).
    apply bind_ok in E1 as (tt & _ & E1).
    destruct (negb _) in E1; inversion E1; subst; [|auto].
    right; eexists; split; [reflexivity|discriminate]. }
  apply Soil in E2.
  destruct V as [->|(x & -> & Nx)], E2 as [->| ->].
  - exists []. split; [reflexivity|intros []].
  - exists [WSoil]. split; [reflexivity|intros [Q|[]]; discriminate].
  - exists [x]. split; [reflexivity|intros [Q|[]]; contradiction].
  - exists [x; WSoil]. split; [reflexivity|intros [Q|[Q|[]]]; [contradiction|discriminate]].
Qed.

Section Keeps.
  Context {upm : units} {K : flt}.
  Variable g : grid_t (ZNum upm).
  Variable G : geom (ZNum upm).
  Variable legal : pose G -> Prop.
  Variable near : Pos (ZNum upm) -> Prop.
  Variable P : params (ZNum upm).
  Hypothesis Hg : grid_ok g.
  Hypothesis HP : params_ok g P.
  Hypothesis HG : geom_ok g G legal near.
  Hypothesis Hhz : 0 <= half_z g.
  Variable Lb : Z.
  Hypothesis Hlow : (cell_z g : Z) * half_z g <= Lb.
  Variables (k : kind) (pr : printer (ZNum upm)) (pf : sf K -> string) (src : string).
  Variable bp : pose G -> gbody K.

  Lemma warns_ok new : forall (s : State.sim (ZNum upm)) old,
    state_ok g G legal near (s, old) -> floored Lb s -> ~ In WRemoved new ->
    state_ok g G legal near (fold_left warn new s, old) /\ floored Lb (fold_left warn new s) /\
    balanced s (fold_left warn new s).
  Proof.
    induction new as [|x new IH]; intros s old Hs Hf Hn; cbn [fold_left].
    - split; [exact Hs|]. split; [exact Hf|apply balanced_refl].
    - destruct (IH (warn s x) old) as (A & B & C);
        [exact Hs|exact Hf|intros Q; apply Hn; right; exact Q|].
      split; [exact A|]. split; [exact B|]. eapply balanced_trans; [|exact C].
      apply (balanced_log _ _ [x]); [reflexivity|intros [Q|[]]; apply Hn; left; exact Q|reflexivity].
  Qed.

  Lemma loop_keeps fuel chk wr v ps : forall (w : world G) fs w' fs',
    state_ok g G legal near w -> Forall legal ps -> floored Lb (fst w) ->
    main_loop G g P k pr pf src bp fuel chk wr v ps w fs = Ok (w', fs') ->
    state_ok g G legal near w' /\ floored Lb (fst w') /\ balanced (fst w) (fst w').
  Proof.
    induction ps as [|p ps IH]; intros w fs w' fs' Hw Hps Hf E; cbn [main_loop] in E.
    - inversion E; subst. split; [exact Hw|]. split; [exact Hf|apply balanced_refl].
    - apply bind_ok in E as ([w1 b] & E1 & E). apply bind_ok in E as (s & E2 & E). cbv zeta in E.
      pose proof (Forall_inv Hps) as Hp. pose proof (Forall_inv_tail Hps) as Hps'.
      destruct (run_ok g G legal near Hg HG P fuel [p] w w1 HP Hw ltac:(auto)) as [Hw1 B1].
      { cbn [run]. rewrite E1. reflexivity. }
      pose proof (step_floored g G legal near P Hg HP HG Lb Hhz Hlow fuel p w w1 b Hw Hp Hf E1) as Hf1.
      destruct w1 as [s1 p1]. cbn [fst snd] in *.
      assert (Q : state_ok g G legal near (s, p1) /\ floored Lb s /\ balanced s1 s).
      { destruct chk.
        - apply bind_ok in E2 as ([s2 ab] & E2 & E3). inversion E3; subst s2.
          destruct (check_warns g P v s1 s ab E2) as (new & -> & Hn). apply warns_ok; assumption.
        - inversion E2; subst. split; [exact Hw1|]. split; [exact Hf1|apply balanced_refl]. }
      destruct Q as (Q1 & Q2 & Q3).
      apply (IH (s, p1)) in E as (R1 & R2 & R3); [|exact Q1|exact Hps'|exact Q2].
      split; [exact R1|]. split; [exact R2|].
      eapply balanced_trans; [exact B1|]. eapply balanced_trans; [exact Q3|exact R3].
  Qed.
End Keeps.
