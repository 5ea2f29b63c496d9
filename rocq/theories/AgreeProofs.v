(** Sizes accepted in binary32, and the agreement of the two assemblies of the geometry:
    ModelProgram.v (any arithmetic) and ModelWhole.v (exact heights). *)
From Coq Require Import ZArith List Bool Reals Lia Lra.
From Coq Require Import Floats.SpecFloat.
From Flocq Require Import Core.Zaux Core.Raux Core.Defs Core.Generic_fmt Core.FLX Core.FLT Core.Round_NE.
From Flocq Require IEEE754.BinarySingleNaN.
From Verif Require Import Outcome Num State Base ModelBodySoil ModelBodyPos ModelStep
  Spec Spec2 Flt FltB FltR ModelTypes ModelGeometry ModelRaster ModelUtils ModelNoise ModelProgram ModelWhole SpecBinary StructProofs
  FloatBase LockNum FloatProofs.
Import ListNotations.
Open Scope Z_scope.

Local Instance sp_pos : Prec_gt_0 24 := eq_refl.
Local Instance sp_max : BinarySingleNaN.Prec_lt_emax 24 128 := eq_refl.
Local Instance dp_pos : Prec_gt_0 53 := eq_refl.
Local Instance dp_max : BinarySingleNaN.Prec_lt_emax 53 1024 := eq_refl.

Lemma leb_real p e a b x y : Prec_gt_0 p -> BinarySingleNaN.Prec_lt_emax p e ->
  is p e a x -> is p e b y -> b_leb a b = Rle_bool x y.
Proof.
  intros Hp He A B. unfold b_leb. rewrite (is_compare p e a b x y A B).
  destruct (Rcompare_spec x y); symmetry.
  - apply Rle_bool_true; lra.
  - apply Rle_bool_true; lra.
  - apply Rle_bool_false; lra.
Qed.

Lemma positive32 a : valid_binary 24 128 a = true -> ~ not_finite a ->
  b_leb (b_conv 53 1024 a) (S754_zero false) = false -> finite32 a /\ 0 < ticks32 a.
Proof.
  intros V N L.
  assert (F : BinarySingleNaN.is_finite_SF a = true).
  { destruct a as [s|s| |s m e]; auto; exfalso; apply N; [right; eauto|left; auto]. }
  split.
  - split; auto. destruct a; auto; discriminate F.
  - pose proof (ticks32_is a V F) as I.
    pose proof (wid_is 0 0 a _ I) as W.
    rewrite (leb_real 53 1024 _ _ _ _ _ _ W (is_zero 53 1024 false)) in L.
    destruct (Z.lt_ge_cases 0 (ticks32 a)) as [P|P]; auto. exfalso.
    rewrite Rle_bool_true in L; [discriminate|].
    rewrite <- (round_0 radix2 (SpecFloat.fexp 53 1024) ZnearestE).
    apply (rnd_le 53 1024 dp_pos). rewrite <- tv_0. apply tv_le; auto.
Qed.

Lemma grid_positive : forall sx sy sz cxy cz g,
  Forall (fun a => valid_binary 24 128 a = true) [sx; sy; sz; cxy; cz] ->
  bnew_grid sx sy sz cxy cz = Built g ->
  Forall (fun a => finite32 a /\ 0 < ticks32 a) [sx; sy; sz; cxy; cz].
Proof.
  intros sx sy sz cxy cz g V H.
  assert (T : forall n, bnew_grid sx sy sz cxy cz <> Throws n) by (intros n; rewrite H; discriminate).
  assert (N : ~ (not_finite sx \/ not_finite sy \/ not_finite sz \/ not_finite cxy \/ not_finite cz)).
  { intros N. destruct (grid_not_finite _ _ _ _ _ N T) as [r E]. rewrite H in E. discriminate E. }
  pose proof (checks_false _ _ _ _ T) as C. cbn [forallb] in C.
  repeat match goal with H : (_ && _)%bool = true |- _ => apply andb_prop in H as [? H] end.
  repeat match goal with H : negb _ = true |- _ => apply negb_true_iff in H end.
  rewrite !Forall_cons_iff in V |- *. destruct V as (V1 & V2 & V3 & V4 & V5 & _).
  repeat split; try (apply positive32; [assumption|tauto|assumption]); auto.
Qed.

(** ** The two assemblies *)
Section Agree.
  Variable t : Z.
  Variable to_ticks : R -> Z.
  Variable g : ggrid FltR.
  Variable b : gbody FltR.
  Variables (tol : R) (buffer : Z) (lines : nat).

  Definition kind_of (k : body_kind) : kind :=
    match k with ABucket => Bucket | ABlade => Blade end.
  Notation G k := (program (K := FltR) k g b tol buffer lines).
  Notation W k := (ModelWhole.whole t to_ticks g b (raster_of (kind_of k) g tol lines buffer b)).

  Lemma program_whole k :
    (forall old new, g_moved (G k) old new = g_moved (W k) (Some old) (Some new)) /\
    (forall p i j z, g_frame (G k) p i j (metres t z) = g_frame (W k) (Some p) i j z) /\
    (forall p, g_raster (G k) p = g_raster (W k) (Some p)) /\
    (forall old new x r, g_reloc (G k) old new x = Ok r ->
       g_reloc (W k) (Some old) (Some new) x =
       Ok (mkReloc (A := ZNum (wunits t)) (r_sx r) (r_sy r) (r_xmain r) (r_i r) (r_j r) (to_ticks (r_z r)))) /\
    (forall old new x u, g_reloc (G k) old new x = UB u ->
       g_reloc (W k) (Some old) (Some new) x = UB u).
  Proof.
    split; [intros [? ?] [? ?]; reflexivity|]. split; [intros [? ?]; reflexivity|].
    split; [destruct k; intros [? ?]; reflexivity|].
    split; intros [x0 q0] [x1 q1] x r.
    - unfold g_reloc, program, ModelWhole.whole, preloc, wreloc, placed, at_pose. cbn [fst snd].
      destruct (move_cell _ _ _ _ _) as [m|u|]; cbn [bind]; [|discriminate|discriminate].
      intros [= <-]. reflexivity.
    - unfold g_reloc, program, ModelWhole.whole, preloc, wreloc, placed, at_pose. cbn [fst snd].
      destruct (move_cell _ _ _ _ _) as [m|u|]; cbn [bind]; [discriminate| |discriminate].
      intros [= <-]. reflexivity.
  Qed.
End Agree.

(** ** The bound on the iterations *)
Lemma program_rounds {K : flt} : forall k (g : ggrid K) b tan prm tol lines fuel p s old w',
  let G := program k g b tol (cell_buffer prm) lines in
  let P := soil_params tan g prm tol in
  0 <= max_iterations prm ->
  step G (soil_grid g) P fuel p (s, old) = Ok (w', true) ->
  exists s1 n, equilibrium s1 = false /\ Z.of_nat n <= max_iterations prm /\
    rounds G (soil_grid g) P p n s1 (fst w') /\
    (Z.of_nat n = max_iterations prm \/ equilibrium (fst w') = true).
Proof.
  intros k g b tan prm tol lines fuel p s old w' G P M H.
  destruct (step_moved G (soil_grid g) P fuel p s old w' H) as (s1 & n & E & L & R & D).
  change (p_max_iterations P) with (Z.to_nat (max_iterations prm)) in L, D.
  exists s1, n. split; auto. split; [lia|]. split; auto. destruct D as [D|D]; [left; lia|right; auto].
Qed.

Lemma run_moves {A : Num} (G : geom A) g P fuel ps : forall w w',
  run G g P fuel ps w = Ok w' -> records (fst w') <> records (fst w) ->
  exists p w1 w2, step G g P fuel p w1 = Ok (w2, true).
Proof.
  induction ps as [|p ps IH]; intros w w' H D; cbn [run] in H.
  - inversion H; subst. contradiction.
  - apply bind_ok in H as ([w1 b] & H1 & H2). destruct b; [eauto|].
    apply (IH w1 w'); auto. destruct w as [s old]. unfold step in H1.
    destruct (g_moved G old p) as [m f]. destruct m; cbn [negb] in H1.
    + repeat (apply bind_ok in H1 as (? & ? & H1); try (destruct x; idtac)). inversion H1.
    + inversion H1; subst. destruct f; exact D.
Qed.

Lemma simulate_moves {K : flt} : forall pi tan lines fuel r (a : arguments (K := K)) s' p',
  simulate pi tan lines fuel r a = Built (Ok (s', p')) -> records s' <> [] ->
  exists g b prm p s old w', 0 <= max_iterations prm /\
    step (program (a_kind a) g b (a_tol a) (cell_buffer prm) lines) (soil_grid g)
      (soil_params tan g prm (a_tol a)) fuel p (s, old) = Ok (w', true).
Proof.
  intros pi tan lines fuel r a s' p' H N. unfold simulate in H.
  destruct (new_grid _ _ _ _ _) as [g| |]; cbn [build] in H; try discriminate.
  destruct (new_param _ _ _ _) as [prm| |] eqn:E; cbn [build] in H; try discriminate.
  destruct (new_body _ _ _ _ _) as [b| |]; cbn [build] in H; try discriminate.
  assert (Q : a_buffer a = cell_buffer prm /\ 0 <= max_iterations prm).
  { unfold new_param in E. cbn [checks] in E. destruct (_ || _); [discriminate|].
    destruct (a_iterations a <? 0) eqn:?; [discriminate|].
    destruct (a_buffer a <? 2); [discriminate|].
    inversion E; subst. cbn. split; auto. lia. }
  destruct Q as [Q M]. rewrite Q in H. inversion H as [H']. clear H.
  apply bind_ok in H' as (s & I & H).
  destruct (run_moves (program (a_kind a) g b (a_tol a) (cell_buffer prm) lines)
    (soil_grid g) (soil_params tan g prm (a_tol a)) fuel (a_poses a) (s, (pos_ b, ori_ b))
    (s', p') H) as (p & [s1 old] & w2 & S).
  { cbn [fst]. intros N'. apply N. rewrite N'. clear N'. unfold program_init in I.
    destruct (perm_table _) as [table r'].
    assert (L : partial (for_each (all_cells (new_sim (soil_grid g) r []))
      (fun c (s : sim (NumOf K)) =>
         v <- cell_noise g (a_amp a) (map Z.of_nat table) (fst c) (snd c) ;;
         Ok (set_t (A := NumOf K) s (fst c) (snd c) v))
      (set_rng (new_sim (soil_grid g) r []) r')) (fun s => records s = [])).
    { apply for_each_partial; [|reflexivity]. intros c s0 _ R.
      destruct (cell_noise _ _ _ _ _); cbn; auto. }
    rewrite I in L. exact L. }
  exists g, b, prm, p, s1, old, w2. split; auto.
Qed.
