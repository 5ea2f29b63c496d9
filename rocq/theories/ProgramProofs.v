(** The safety theorems for the program in binary32. *)
From Coq Require Import ZArith List Bool Lia.
From Coq Require Import Floats.SpecFloat.
From Verif Require Import Outcome Num State Base ModelBodySoil ModelBodyPos ModelUtils ModelStep
  Flt FltB ModelTypes ModelGeometry ModelRaster ModelNoise ModelProgram SpecSafe SafeProofs.
Import ListNotations.
Open Scope Z_scope.

(** ** Numbers converted from int *)
Lemma shr_1_pos mrs : 0 <= shr_m mrs -> 0 <= shr_m (shr_1 mrs).
Proof. destruct mrs as [m r s]. destruct m as [|p|p]; simpl; try lia. destruct p; simpl; lia. Qed.

Lemma shr_pos mrs e n : 0 <= shr_m mrs -> 0 <= shr_m (fst (shr mrs e n)).
Proof.
  intros H. unfold shr. destruct n as [|p|p]; simpl; auto.
  generalize dependent mrs. induction p as [p IH|p IH|]; intros mrs H; simpl.
  - apply IH, IH, shr_1_pos, H.
  - apply IH, IH, H.
  - apply shr_1_pos, H.
Qed.

Lemma shr_record_pos m l : 0 <= m -> 0 <= shr_m (shr_record_of_loc m l).
Proof. destruct l as [|[]]; simpl; auto. Qed.

Lemma round_ne_pos m l : 0 <= m -> 0 <= round_nearest_even m l.
Proof. intros H. destruct l as [|[]]; simpl; try lia. destruct (Z.even m); lia. Qed.

Lemma round_aux_not_nan p e s m x l : binary_round_aux p e s (Zpos m) x l <> S754_nan.
Proof.
  unfold binary_round_aux, shr_fexp.
  generalize (shr_pos (shr_record_of_loc (Zpos m) l) x (fexp p e (Zdigits2 (Zpos m) + x) - x)
    (shr_record_pos _ _ (Pos2Z.is_nonneg m))).
  destruct (shr _ _ _) as [mrs e1]. cbn [fst]. intros H1.
  generalize (shr_pos (shr_record_of_loc (round_nearest_even (shr_m mrs) (loc_of_shr_record mrs))
    loc_Exact) e1 (fexp p e (Zdigits2 (round_nearest_even (shr_m mrs) (loc_of_shr_record mrs)) + e1)
    - e1) (shr_record_pos _ _ (round_ne_pos _ _ H1))).
  destruct (shr _ _ _) as [mrs2 e2]. cbn [fst]. intros H2.
  destruct (shr_m mrs2); [discriminate| |lia].
  destruct (_ <=? _); discriminate.
Qed.

Lemma of_scaled_not_nan p e neg m x : of_scaled p e neg m x <> S754_nan.
Proof.
  unfold of_scaled, binary_normalize. destruct m as [|m|m]; [discriminate| |];
  unfold binary_round; destruct (shl_align _ _ _); apply round_aux_not_nan.
Qed.

Lemma b_eqb_refl x : x <> S754_nan -> b_eqb x x = true.
Proof.
  intros H. unfold b_eqb. destruct x as [s|s| |s m e]; try congruence; destruct s; cbn; auto;
    rewrite Z.compare_refl, Pos.compare_refl; reflexivity.
Qed.

(** The program in binary32 meets what is asked of the arithmetic. *)
Lemma binary32_arithmetic (g : grid_t (NumOf FltB)) (P : params (NumOf FltB)) :
  b_ltb (p_tol P) (S754_zero false) = false -> arithmetic_ok g P.
Proof.
  intros H. split; [reflexivity|]. split; [exact H|].
  apply b_eqb_refl, of_scaled_not_nan.
Qed.

(** ** A finite set of poses that can be checked by computation *)
Section Check.
  Context {K : flt}.
  Variables (g : ggrid K) (G : geom (NumOf K)).
  Notation sg := (soil_grid g).

  Definition inside_rel (r : reloc (NumOf K)) : bool :=
    (1 <=? r_i r) && (r_i r <=? 2 * g_half_x g - 1) &&
    (1 <=? r_j r) && (r_j r <=? 2 * g_half_y g - 1).

  Definition area_in (a : area) : bool :=
    (1 <=? x_lo a) && (x_hi a <=? 2 * g_half_x g) &&
    (1 <=? y_lo a) && (y_hi a <=? 2 * g_half_y g).

  Definition cell_in (a : area) (c : cell3) : bool :=
    let '(i, j, k) := c in
    (x_lo a <=? i) && (i <? x_hi a) && (y_lo a <=? j) && (j <? y_hi a) &&
    (0 <=? k) && (k <=? 2 * g_half_z g).

  Definition raster_in (p : pose G) : bool :=
    match g_raster G p with
    | Ok (a, walls) =>
        area_in a &&
        forallb (fun w => match w with [] => false | _ => forallb (cell_in a) w end) walls
    | _ => false
    end.

  (** The positions that may be stored in a record. *)
  Definition positions (ps : list (pose G)) : list (Pos (NumOf K)) :=
    flat_map (fun p =>
      match g_raster G p with
      | Ok (_, walls) =>
          flat_map (map (fun c : cell3 => let '(i, j, k) := c in
            g_frame G p i j (nar (vect_z sg k)))) walls
      | _ => []
      end) ps.

  Definition reloc_in (p p' : pose G) (x : Pos (NumOf K)) : bool :=
    match g_reloc G p p' x with Ok r => inside_rel r | _ => false end.

  Definition poses_in (ps : list (pose G)) : bool :=
    forallb raster_in ps &&
    (let xs := positions ps in
     forallb (fun p => forallb (fun p' => forallb (reloc_in p p') xs) ps) ps).

  Lemma poses_in_ok ps : poses_in ps = true ->
    poses_ok sg G (fun p => In p ps) (fun x => In x (positions ps)).
  Proof.
    intros H. unfold poses_in in H. apply andb_true_iff in H as [H1 H2].
    rewrite forallb_forall in H1, H2. split.
    - intros p Ip. specialize (H1 p Ip). unfold raster_in in H1.
      destruct (g_raster G p) as [[a walls]| |] eqn:E; try discriminate.
      apply andb_true_iff in H1 as [Ha Hw]. rewrite forallb_forall in Hw.
      exists a, walls. split; [reflexivity|]. split.
      { unfold area_in in Ha. rewrite !andb_true_iff, !Z.leb_le in Ha. unfold off_border. cbn. lia. }
      split.
      { intros w Iw ->. discriminate (Hw [] Iw). }
      intros w i j k Iw Ic. specialize (Hw w Iw).
      assert (Hc : cell_in a (i, j, k) = true).
      { destruct w as [|c0 w]; [destruct Ic|]. rewrite forallb_forall in Hw. auto. }
      unfold cell_in in Hc. rewrite !andb_true_iff, !Z.leb_le, !Z.ltb_lt in Hc.
      unfold in_area. split; [lia|]. split; [cbn; lia|].
      unfold positions. apply in_flat_map. exists p. split; auto. rewrite E.
      apply in_flat_map. exists w. split; auto.
      apply in_map_iff. exists (i, j, k). split; auto.
    - intros p p' x Ip Ip' Ix. specialize (H2 p Ip).
      rewrite forallb_forall in H2. specialize (H2 p' Ip').
      rewrite forallb_forall in H2. specialize (H2 x Ix). unfold reloc_in in H2.
      destruct (g_reloc G p p' x) as [r| |]; try discriminate.
      exists r. split; auto. unfold inside_rel in H2.
      rewrite !andb_true_iff, !Z.leb_le in H2. cbn. lia.
  Qed.
End Check.

(** Init: what it returns is a state of the right size, with no body and no records. *)
Lemma program_init_memory {K : flt} (g : ggrid K) amp r l G legal near old P s :
  arithmetic_ok (soil_grid g) P -> size_ok (soil_grid g) P ->
  program_init g amp (new_sim (soil_grid g) r l) = Ok s ->
  memory_ok (soil_grid g) G legal near (s, old).
Proof.
  intros Ha Hs E. unfold program_init in E.
  destruct (perm_table _) as [table r'].
  pose (I := fun s => memory_ok (soil_grid g) G legal near (s, old)).
  assert (Q : partial (for_each (all_cells (new_sim (soil_grid g) r l))
      (fun c (s : sim (NumOf K)) =>
         v <- cell_noise g amp (map Z.of_nat table) (fst c) (snd c) ;;
         Ok (set_t (A := NumOf K) s (fst c) (snd c) v)) (set_rng (new_sim (soil_grid g) r l) r')) I).
  { apply for_each_partial.
    - intros c s1 _ H1. destruct (cell_noise _ _ _ _ _); cbn [bind partial]; auto.
    - destruct Hs as (Sx & Sy & _). unfold I, memory_ok, off_border. cbn in *.
      split; [reflexivity|]. split; [reflexivity|]. split; [lia|]. split; [lia|].
      split; [|split; [constructor|left; reflexivity]].
      intros k i j _ _ Hp. exfalso. revert Hp.
      change (negb (feqb (f0 (n := NumOf K)) f0) || negb (feqb (f0 (n := NumOf K)) f0) <> true).
      rewrite (proj1 Ha). discriminate. }
  exact (partial_ok _ _ _ Q E).
Qed.

(** ** The program *)
Lemma program_safe {K : flt} k (g : ggrid K) b tan prm tol lines fuel
  (legal : ppose -> Prop) near ps amp r l s old :
  let G := program k g b tol (cell_buffer prm) lines in
  let P := soil_params tan g prm tol in
  arithmetic_ok (soil_grid g) P -> size_ok (soil_grid g) P ->
  poses_ok (soil_grid g) G legal near -> Forall legal ps ->
  program_init g amp (new_sim (soil_grid g) r l) = Ok s ->
  safe (run G (soil_grid g) P fuel ps (s, old)) (memory_ok (soil_grid g) G legal near).
Proof.
  intros G P Ha Hs Hp Hl E. apply run_safe; auto.
  eapply program_init_memory; eauto.
Qed.

(** ** The statements of PropertiesProgram.v *)
Lemma safe_split {X} (m : outcome X) Q :
  safe m Q -> (forall u, m <> UB u) /\ (forall x, m = Ok x -> Q x).
Proof.
  destruct m; cbn; intros H; split; try discriminate; try tauto. intros ? [= <-]; exact H.
Qed.

Lemma step_any (A : Num) (g : grid_t A) (P : params A) (G : geom A) legal near fuel p w :
  arithmetic_ok g P -> size_ok g P -> poses_ok g G legal near ->
  memory_ok g G legal near w -> legal p ->
  (forall u, step G g P fuel p w <> UB u) /\
  (forall w' b, step G g P fuel p w = Ok (w', b) -> memory_ok g G legal near w').
Proof.
  intros Ha Hs Hp Hm Hl.
  destruct (safe_split _ _ (step_safe g P near Ha Hs G legal Hp fuel p w Hm Hl)) as [H1 H2].
  split; auto. intros w' b E. exact (H2 (w', b) E).
Qed.

Lemma run_any (A : Num) (g : grid_t A) (P : params A) (G : geom A) legal near fuel ps w :
  arithmetic_ok g P -> size_ok g P -> poses_ok g G legal near ->
  memory_ok g G legal near w -> Forall legal ps ->
  (forall u, run G g P fuel ps w <> UB u) /\
  (forall w', run G g P fuel ps w = Ok w' -> memory_ok g G legal near w').
Proof.
  intros Ha Hs Hp Hm Hl.
  exact (safe_split _ _ (run_safe g P near Ha Hs G legal Hp fuel ps Hl w Hm)).
Qed.

Lemma start_any (A : Num) (g : grid_t A) (P : params A) (G : geom A) legal near noise r l old :
  arithmetic_ok g P -> size_ok g P ->
  memory_ok g G legal near (init g noise (new_sim g r l), old).
Proof. intros Ha Hs. exact (init_memory g P near Ha Hs G legal r l old noise). Qed.

Lemma program_binary32 k (g : ggrid FltB) b tan prm tol lines fuel legal near ps amp r l s old :
  let G := program k g b tol (cell_buffer prm) lines in
  let P := soil_params tan g prm tol in
  b_ltb tol (S754_zero false) = false -> size_ok (soil_grid g) P ->
  poses_ok (soil_grid g) G legal near -> Forall legal ps ->
  program_init g amp (new_sim (soil_grid g) r l) = Ok s ->
  forall u, run G (soil_grid g) P fuel ps (s, old) <> UB u.
Proof.
  intros G P Ht Hs Hp Hl E.
  assert (Ha : arithmetic_ok (soil_grid g) P) by (apply binary32_arithmetic; exact Ht).
  exact (proj1 (safe_split _ _
    (program_safe k g b tan prm tol lines fuel legal near ps amp r l s old Ha Hs Hp Hl E))).
Qed.
