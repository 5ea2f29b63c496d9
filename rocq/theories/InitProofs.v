(** Init writes grid-aligned terrain and nothing else. *)
From Coq Require Import ZArith List Bool Lia Permutation.
From Verif Require Import Outcome Num State Base Spec InvBase RelaxBase ModelRelax
  ModelIntersect ModelBodySoil ModelBodyPos ModelUtils ModelStep Spec2 StepProofs CheckProofs.
Import ListNotations.
Open Scope Z_scope.

Section Init.
  Context {A : Num}.
  Local Notation sim := (sim A).
  Variable g : grid_t A.

  (** Everything but the terrain is as before. *)
  Definition same_but_terrain (s s' : sim) : Prop :=
    nx s' = nx s /\ ny s' = ny s /\ equilibrium s' = equilibrium s /\
    body s' = body s /\ body_soil s' = body_soil s /\ records s' = records s /\
    body_area s' = body_area s /\ relax_area s' = relax_area s /\
    impact_area s' = impact_area s /\ wlog s' = wlog s.

  Lemma fold_set_t (f : Z -> Z -> F A) l : forall s : sim,
    let s' := fold_left (fun s c => set_t s (fst c) (snd c) (f (fst c) (snd c))) l s in
    same_but_terrain s s' /\ rng s' = rng s /\
    forall i j, (In (i, j) l -> terrain s' i j = f i j) /\
                (~ In (i, j) l -> terrain s' i j = terrain s i j).
  Proof.
    induction l as [|[a b] l IH]; intros s s'.
    - split; [repeat split|]. split; [reflexivity|]. intros i j. split; [intros []|reflexivity].
    - subst s'. cbn [fold_left fst snd].
      destruct (IH (set_t s a b (f a b))) as (E1 & E2 & E3).
      split; [exact E1|]. split; [exact E2|]. intros i j. destruct (E3 i j) as [H1 H2].
      assert (T : terrain (set_t s a b (f a b)) i j =
                  if (i =? a) && (j =? b) then f a b else terrain s i j) by reflexivity.
      split.
      + intros [E|H]; [|auto]. inversion E; subst.
        destruct (in_dec (fun x y : Z * Z => ltac:(decide equality; apply Z.eq_dec)) (i, j) l)
          as [Q|Q]; [auto|].
        rewrite (H2 Q), T, !Z.eqb_refl. reflexivity.
      + intros N. rewrite (H2 (fun Q => N (or_intror Q))), T.
        destruct (Z.eqb_spec i a) as [->|]; [|reflexivity].
        destruct (Z.eqb_spec j b) as [->|]; [|reflexivity].
        exfalso. apply N. left; reflexivity.
  Qed.

  (** The table given to the noise function is a permutation of 0..255. *)
  Theorem init_spec (noise : list nat -> Z -> Z -> F A) (s : sim) :
    exists table, Permutation table (seq 0 256) /\
      let s' := init g noise s in
      same_but_terrain s s' /\
      forall i j,
        (0 <= i < nx s /\ 0 <= j < ny s ->
           terrain s' i j = f_snap (noise table i j) (cell_z g)) /\
        (~ (0 <= i < nx s /\ 0 <= j < ny s) -> terrain s' i j = terrain s i j).
  Proof.
    unfold init, perm_table.
    destruct (shuffle (seq 0 256) (rng s)) as [table r] eqn:E.
    exists table. split; [eapply shuffle_eq; eauto|]. cbv zeta. unfold init_terrain.
    destruct (fold_set_t (fun i j => f_snap (noise table i j) (cell_z g))
      (all_cells (set_rng s r)) (set_rng s r)) as (E1 & E2 & E3).
    split; [exact E1|]. intros i j. destruct (E3 i j) as [H1 H2].
    assert (Q : In (i, j) (all_cells (set_rng s r)) <-> 0 <= i < nx s /\ 0 <= j < ny s).
    { unfold all_cells. rewrite in_area_cells. unfold in_area. cbn. tauto. }
    rewrite <- Q. split; [auto|]. intros N. rewrite (H2 N). reflexivity.
  Qed.
End Init.

(** A new SimOut given to Init is ready for Step. *)
Section InitOk.
  Context {upm : units}.
  Variable g : grid_t (ZNum upm).
  Variable G : geom (ZNum upm).
  Variable legal : pose G -> Prop.
  Variable near : Pos (ZNum upm) -> Prop.
  Hypothesis Hg : grid_ok g.

  Lemma snap_aligned (v : Z) : aligned (cell_z g) (f_snap (n := ZNum upm) v (cell_z g)).
  Proof. zn. exists (round_half_away v (cell_z g)). ring. Qed.

  Theorem init_ok (noise : list nat -> Z -> Z -> Z) r l old :
    state_ok g G legal near (init (A := ZNum upm) g noise (new_sim g r l), old).
  Proof.
    destruct (init_spec (A := ZNum upm) g noise (new_sim g r l)) as (table & _ & S & T).
    set (s := init g noise (new_sim g r l)) in *.
    destruct S as (S1 & S2 & _ & S4 & S5 & S6 & S7 & S8 & _).
    destruct Hg as (G1 & G2 & G3 & _).
    assert (No : forall k i j, ~ body_at s k i j).
    { intros k i j. unfold body_at. rewrite S4. intros [H|H]; apply H; reflexivity. }
    assert (Ns : forall k i j, ~ soil_on s k i j).
    { intros k i j. unfold soil_on. rewrite S5. intros [H|H]; apply H; reflexivity. }
    unfold state_ok, consistent. rewrite S1, S2, S6, S7, S8.
    split; [split; [rewrite S1|rewrite S2]; reflexivity|].
    split; [|split; [|split; [|split; [|split; [|split]]]]].
    - split; [cbn; lia|]. split; [cbn; lia|]. split; [|constructor].
      intros i j Hij. split; [|split].
      + split.
        * destruct (T i j) as [T1 _]. rewrite T1; [apply snap_aligned|].
          unfold on_grid in Hij. rewrite S1, S2 in Hij. exact Hij.
        * intros k _. rewrite S4, S5. split; apply aligned_0.
      + split; [intros k _ H; destruct (No _ _ _ H)|intros H; destruct (No _ _ _ H)].
      + intros k _. split; [intros H; destruct (Ns _ _ _ H)|].
        unfold soil_height. rewrite S5. reflexivity.
    - intros i j k _ _ H. destruct (No _ _ _ H).
    - intros i j k _ _ H. destruct (Ns _ _ _ H).
    - intros k i j _ _ H. destruct (No _ _ _ H).
    - unfold within_grid. cbn. lia.
    - unfold within_grid. cbn. lia.
    - left; reflexivity.
  Qed.
End InitOk.

(** A state without body nor soil on it, whatever its terrain. *)
Section Bare.
  Context {upm : units}.
  Variable g : grid_t (ZNum upm).
  Variable G : geom (ZNum upm).
  Variable legal : pose G -> Prop.
  Variable near : Pos (ZNum upm) -> Prop.

  Definition with_terrain (t : Z -> Z -> Z) (s : sim (ZNum upm)) : sim (ZNum upm) :=
    @mkSim (ZNum upm) (nx s) (ny s) (equilibrium s) t (body s) (body_soil s) (records s)
      (body_area s) (relax_area s) (impact_area s) (rng s) (wlog s).

  Lemma with_terrain_ok (t : Z -> Z -> Z) r l old :
    grid_ok g -> (forall i j, aligned (cell_z g) (t i j)) ->
    state_ok g G legal near (with_terrain t (new_sim g r l), old).
  Proof.
    intros (G1 & G2 & G3 & _) T. set (s := with_terrain t (new_sim g r l)).
    assert (No : forall k i j, ~ body_at s k i j) by (intros k i j [H|H]; apply H; reflexivity).
    assert (Ns : forall k i j, ~ soil_on s k i j) by (intros k i j [H|H]; apply H; reflexivity).
    split; [split; reflexivity|]. split.
    { split; [cbn; lia|]. split; [cbn; lia|]. split; [|constructor].
      intros i j _. split; [|split].
      - split; [apply T|]. intros k _. split; apply aligned_0.
      - split; [intros k _ H; destruct (No _ _ _ H)|intros H; destruct (No _ _ _ H)].
      - intros k _. split; [intros H; destruct (Ns _ _ _ H)|reflexivity]. }
    split; [intros i j k _ _ H; destruct (No _ _ _ H)|].
    split; [intros i j k _ _ H; destruct (Ns _ _ _ H)|].
    split; [intros k i j _ _ H; destruct (No _ _ _ H)|].
    split; [unfold within_grid; cbn; lia|]. split; [unfold within_grid; cbn; lia|].
    left. reflexivity.
  Qed.
End Bare.
