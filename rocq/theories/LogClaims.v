(** The Checks, which write only in the log, change neither the simulation nor the files. *)
From Coq Require Import Reals ZArith NArith List Bool String Lia.
From Verif Require Import Outcome Num Base Flt FltR State ModelTypes ModelGeometry ModelBodySoil ModelBodyPos
  ModelUtils ModelStep ModelRaster ModelNoise ModelWhole ModelFiles ModelExample ModelCheckLoop ModelOutputs
  ModelEvolution SpecGeo PoseProofs TypesProofs InsideProofs GeoClaims WholeClaims ExampleProofs ExampleLoop
  ExampleRun EvolutionClaims LogProofs.
Import ListNotations.
Open Scope Z_scope.

Definition same_but_log {A : Num} (s s' : sim A) : Prop :=
  nx s' = nx s /\ ny s' = ny s /\ equilibrium s' = equilibrium s /\ terrain s' = terrain s /\
  body s' = body s /\ body_soil s' = body_soil s /\ records s' = records s /\
  body_area s' = body_area s /\ relax_area s' = relax_area s /\ impact_area s' = impact_area s /\
  rng s' = rng s.

Lemma relog_same {A : Num} h (s s' : sim A) : relog h s = relog h s' ->
  same_but_log s s' /\ h (wlog s) = h (wlog s').
Proof.
  intros E. unfold relog in E. injection E as H1 H2 H3 H4 H5 H6 H7 H8 H9 H10 H11 H12.
  split; [|exact H12]. unfold same_but_log. do 10 (split; [symmetry; assumption|]). symmetry; assumption.
Qed.

Lemma same_sym {A : Num} (s s' : sim A) : same_but_log s s' -> same_but_log s' s.
Proof. unfold same_but_log. intuition congruence. Qed.

Definition pre (l x : list warning) : list warning := (l ++ x)%list.
Definition only_step (x : list warning) : list warning := filter of_step x.
Lemma pre_warn l x w : of_step w = true -> pre l (x ++ [w]) = (pre l x ++ [w])%list.
Proof. intros _. unfold pre. rewrite app_assoc. reflexivity. Qed.
Lemma only_warn x w : of_step w = true -> only_step (x ++ [w]) = (only_step x ++ [w])%list.
Proof. intros H. unfold only_step. rewrite filter_app. cbn. rewrite H. reflexivity. Qed.

Definition no_log {A : Num} (s : sim A) : sim A := relog (fun _ => []) s.

Lemma relog_pre {A : Num} (s s' : sim A) : same_but_log s s' -> s' = relog (pre (wlog s')) (no_log s).
Proof.
  intros (H1 & H2 & H3 & H4 & H5 & H6 & H7 & H8 & H9 & H10 & H11).
  unfold no_log, relog, pre. cbn [nx ny equilibrium terrain body body_soil records body_area relax_area
    impact_area rng wlog].
  rewrite app_nil_r, <- H1, <- H2, <- H3, <- H4, <- H5, <- H6, <- H7, <- H8, <- H9, <- H10, <- H11.
  destruct s'. reflexivity.
Qed.

Lemma ok_inj {X} (a b : X) : Ok a = Ok b -> a = b.
Proof. intros E. injection E as E. exact E. Qed.

Section Log.
  Context {A : Num}.
  Variable G : geom A.
  Variable g : grid_t A.
  Variable P : params A.

  Lemma run_any_log fuel ps (s1 s2 : sim A) old w1 : same_but_log s1 s2 ->
    run G g P fuel ps (s1, old) = Ok w1 ->
    exists w2 new, run G g P fuel ps (s2, old) = Ok w2 /\
      same_but_log (fst w1) (fst w2) /\ snd w2 = snd w1 /\
      wlog (fst w1) = (wlog s1 ++ new)%list /\ wlog (fst w2) = (wlog s2 ++ new)%list /\
      Forall (fun w => of_step w = true) new.
  Proof.
    intros S E. assert (R : same_but_log s1 s1) by (repeat split).
    set (s0 := no_log s1).
    assert (E1 : run G g P fuel ps (relog_w (pre (wlog s1)) G (s0, old)) = Ok w1).
    { unfold relog_w. cbn [fst snd]. unfold s0. rewrite <- (relog_pre s1 s1 R). exact E. }
    rewrite run_log in E1 by (intros; apply pre_warn; assumption).
    assert (E2 : run G g P fuel ps (s2, old) =
      omap (relog_w (pre (wlog s2)) G) (run G g P fuel ps (s0, old))).
    { rewrite <- run_log by (intros; apply pre_warn; assumption). unfold relog_w. cbn [fst snd].
      unfold s0. rewrite <- (relog_pre s1 s2 S). reflexivity. }
    assert (E3 : run G g P fuel ps (s0, old) = omap (relog_w only_step G) (run G g P fuel ps (s0, old))).
    { rewrite <- run_log by (intros; apply only_warn; assumption). reflexivity. }
    destruct (run G g P fuel ps (s0, old)) as [w0| |]; [|discriminate E1|discriminate E1].
    cbn [omap] in E1, E2, E3. injection E1 as <-. injection E3 as E3.
    exists (relog_w (pre (wlog s2)) G w0), (wlog (fst w0)). split; [exact E2|].
    split; [repeat split|]. split; [reflexivity|]. split; [reflexivity|]. split; [reflexivity|].
    apply Forall_forall. intros w H.
    assert (Q : wlog (fst w0) = only_step (wlog (fst w0))) by (rewrite E3 at 1; reflexivity).
    rewrite Q in H. apply filter_In in H as [_ H]. exact H.
  Qed.

  Lemma check_soil_log tol l : forall (s : sim A) s' b, check_soil_loop tol l s = Ok (s', b) ->
    s' = s \/ s' = warn s WSoil.
  Proof.
    induction l as [|[i j] l IH]; intros s s' b E; cbn [check_soil_loop] in E.
    - injection E as <- <-. left. reflexivity.
    - unfold guard in E. destruct (inb s i j); [|discriminate E].
      destruct (cell_ok tol s i j); [eapply IH; exact E|injection E as <- <-; right; reflexivity].
  Qed.

  Lemma check_log v (s s' : sim A) ab : check g P v s = Ok (s', ab) ->
    exists new, wlog s' = (wlog s ++ new)%list /\ relog only_step s' = relog only_step s.
  Proof.
    unfold check. intros E. apply bind_ok in E as ([s1 a] & E1 & E).
    apply bind_ok in E as ([s2 b] & E2 & E). injection E as <- _.
    assert (Q1 : exists new, s1 = fold_left warn new s /\ only_step new = []).
    { unfold check_volume in E1. apply bind_ok in E1 as (f & _ & E1).
      destruct (existsb _ _); [injection E1 as <- _; exists [WRecords]; split; reflexivity|].
      apply bind_ok in E1 as (x & _ & E1). apply bind_ok in E1 as (y & _ & E1).
      apply bind_ok in E1 as (z & _ & E1).
      destruct (negb _); injection E1 as <- _; [exists [WVolume]|exists []]; split; reflexivity. }
    assert (Q2 : exists new, s2 = fold_left warn new s1 /\ only_step new = []).
    { unfold check_soil in E2. destruct (check_soil_log _ _ _ _ _ E2) as [-> | ->];
        [exists []|exists [WSoil]]; split; reflexivity. }
    assert (W : forall new (u : sim A), wlog (fold_left warn new u) = (wlog u ++ new)%list /\
      (only_step new = [] -> relog only_step (fold_left warn new u) = relog only_step u)).
    { induction new as [|w new IH]; intros u; cbn [fold_left]; [rewrite app_nil_r; split; reflexivity|].
      destruct (IH (warn u w)) as [I1 I2]. split.
      - rewrite I1. cbn [warn wlog]. rewrite <- app_assoc. reflexivity.
      - intros N. unfold only_step in N. cbn [filter] in N.
        destruct (of_step w) eqn:Ew; [discriminate N|].
        rewrite I2 by exact N. unfold relog, warn, only_step. cbn. rewrite filter_app. cbn. rewrite Ew, app_nil_r.
        reflexivity. }
    destruct Q1 as (n1 & -> & N1), Q2 as (n2 & -> & N2).
    exists (n1 ++ n2)%list. destruct (W n1 s) as [A1 B1]. destruct (W n2 (fold_left warn n1 s)) as [A2 B2].
    split; [rewrite A2, A1, app_assoc; reflexivity|]. rewrite B2, B1 by assumption. reflexivity.
  Qed.

  Lemma step_appends fuel p (w w1 : world G) b : step G g P fuel p w = Ok (w1, b) ->
    exists new, wlog (fst w1) = (wlog (fst w) ++ new)%list.
  Proof.
    intros E. destruct w as [s old].
    destruct (run_any_log fuel [p] s s old w1) as (w2 & new & _ & _ & _ & L & _).
    - repeat split.
    - cbn [run]. rewrite E. reflexivity.
    - exists new. exact L.
  Qed.

  Section Loop.
    Context {K : flt}.
    Variables (k : kind) (pr : printer A) (pf : sf K -> string) (src : string) (bp : pose G -> gbody K).
    Notation loop := (main_loop G g P k pr pf src bp).

    Lemma outputs_log h (w : world G) fs :
      write_outputs G k pr pf src bp (relog_w h G w) fs = write_outputs G k pr pf src bp w fs.
    Proof. reflexivity. Qed.

    Lemma loop_log h fuel wr v v' ps :
      (forall x w, of_step w = true -> h (x ++ [w])%list = (h x ++ [w])%list) -> forall w fs,
      loop fuel false wr v' ps (relog_w h G w) fs =
        omap (fun r => (relog_w h G (fst r), snd r)) (loop fuel false wr v ps w fs).
    Proof.
      intros Hh. induction ps as [|p ps IH]; intros w fs; cbn [main_loop]; [reflexivity|].
      rewrite step_log by exact Hh. apply omap_bind. intros [w1 b]. cbn [bind fst snd].
      change (write_outputs G k pr pf src bp (fst (relog_w h G w1), snd (relog_w h G w1)) fs)
        with (write_outputs G k pr pf src bp (fst w1, snd w1) fs).
      change ((fst (relog_w h G w1), snd (relog_w h G w1))) with (relog_w h G (fst w1, snd w1)).
      apply IH.
    Qed.

    Lemma loop_only fuel wr v v' ps : forall (w w' : world G) fs fs',
      loop fuel true wr v ps w fs = Ok (w', fs') ->
      loop fuel false wr v' ps (relog_w only_step G w) fs = Ok (relog_w only_step G w', fs') /\
      exists new, wlog (fst w') = (wlog (fst w) ++ new)%list.
    Proof.
      induction ps as [|p ps IH]; intros w w' fs fs' E; cbn [main_loop] in E |- *.
      - injection E as <- <-. split; [reflexivity|]. exists []. rewrite app_nil_r. reflexivity.
      - apply bind_ok in E as ([w1 b] & E1 & E). apply bind_ok in E as (s & E2 & E).
        apply bind_ok in E2 as ([s1 ab] & E2 & E3). injection E3 as ->.
        destruct (check_log _ _ _ _ E2) as (n2 & L2 & R2).
        destruct (step_appends _ _ _ _ _ E1) as (n1 & L1).
        rewrite step_log by exact only_warn. rewrite E1. cbn [omap bind fst snd].
        apply IH in E as (E & n3 & L3). split.
        + assert (W : write_outputs G k pr pf src bp (s, snd w1) fs =
            write_outputs G k pr pf src bp (fst (relog_w only_step G w1), snd (relog_w only_step G w1)) fs).
          { rewrite <- (outputs_log only_step (s, snd w1)).
            unfold relog_w. cbn [fst snd]. rewrite R2. reflexivity. }
          assert (V : relog_w only_step G (s, snd w1) =
            (fst (relog_w only_step G w1), snd (relog_w only_step G w1))).
          { unfold relog_w. cbn [fst snd]. rewrite R2. reflexivity. }
          etransitivity; [|exact E]. rewrite W, V. reflexivity.
        + exists (n1 ++ n2 ++ n3)%list. rewrite L3. cbn [fst]. rewrite L2, L1, !app_assoc. reflexivity.
    Qed.

    Lemma loop_checks_inert fuel wr v v' ps (w w' : world G) fs fs' :
      loop fuel true wr v ps w fs = Ok (w', fs') ->
      exists w2 new, loop fuel false wr v' ps w fs = Ok (w2, fs') /\
        same_but_log (fst w') (fst w2) /\ snd w2 = snd w' /\
        wlog (fst w') = (wlog (fst w) ++ new)%list /\
        wlog (fst w2) = (wlog (fst w) ++ filter of_step new)%list.
    Proof.
      intros E. apply (loop_only fuel wr v v') in E as (E & new & L).
      rewrite (loop_log only_step fuel wr v' v' ps only_warn) in E.
      assert (X : loop fuel false wr v' ps w fs =
        omap (fun r => (relog_w (pre (wlog (fst w))) G (fst r), snd r))
          (loop fuel false wr v' ps (no_log (fst w), snd w) fs)).
      { rewrite <- (loop_log (pre (wlog (fst w))) fuel wr v' v' ps) by (intros; apply pre_warn; assumption).
        unfold relog_w. cbn [fst snd]. rewrite <- (relog_pre (fst w) (fst w)) by (repeat split).
        destruct w; reflexivity. }
      assert (Y : loop fuel false wr v' ps (no_log (fst w), snd w) fs =
        omap (fun r => (relog_w only_step G (fst r), snd r))
          (loop fuel false wr v' ps (no_log (fst w), snd w) fs)).
      { rewrite <- (loop_log only_step fuel wr v' v' ps only_warn). reflexivity. }
      destruct (loop fuel false wr v' ps (no_log (fst w), snd w) fs) as [[w0 fs0]| |];
        rewrite X in E; [|discriminate E|discriminate E].
      cbn [omap fst snd] in X, Y, E. apply ok_inj, pair_equal_spec in E as [E E3].
      unfold relog_w at 1 3 in E. cbn [fst snd] in E. apply pair_equal_spec in E as [E1 E2].
      apply ok_inj, pair_equal_spec in Y as [Y1 _].
      assert (Q : wlog (fst w0) = only_step (wlog (fst w0))) by (rewrite Y1 at 1; reflexivity).
      exists (relog_w (pre (wlog (fst w))) G w0), new. split; [rewrite X, E3; reflexivity|].
      split; [|split; [exact E2|split; [exact L|]]].
      - apply relog_same in E1 as [S _]. apply same_sym. exact S.
      - cbn [relog_w fst relog wlog]. unfold pre at 1. f_equal.
        apply relog_same in E1 as [_ F]. cbn [relog_w fst relog wlog] in F. unfold pre in F.
        rewrite L in F. unfold only_step in F, Q. rewrite !filter_app in F.
        apply app_inv_head in F. rewrite <- F. exact Q.
    Qed.
  End Loop.
End Log.

(** ** The example program *)
Lemma whole_init_log t (g : ggrid FltR) amp (s s' : sim (ZNum (wunits t))) :
  whole_init t g amp s = Ok s' -> wlog s' = wlog s.
Proof.
  unfold whole_init. destruct (perm_table (rng s)) as [table r].
  assert (Q : forall l (u u' : sim (ZNum (wunits t))),
    for_each l (fun c (s : sim (ZNum (wunits t))) => h <- cell_noise (K := FltR) g amp (map Z.of_nat table) (fst c) (snd c) ;;
      Ok (set_t (A := ZNum (wunits t)) s (fst c) (snd c) (ticks t h))) u = Ok u' -> wlog u' = wlog u).
  { induction l as [|c l IH]; intros u u' E; cbn [for_each] in E; [injection E as <-; reflexivity|].
    apply bind_ok in E as (u1 & E1 & E). apply bind_ok in E1 as (h & _ & E1). apply ok_inj in E1. subst u1.
    rewrite (IH _ _ E). reflexivity. }
  intros E. rewrite (Q _ _ _ E). reflexivity.
Qed.

Lemma evolution_checks_inert k t to_ticks g cz b P pr pf src steps lines fuel wr traj rg l fs w' fs' :
  soil_evolution k t to_ticks g cz b P pr pf src steps lines fuel true wr traj rg l fs = Ok (w', fs') ->
  exists w2 new,
    soil_evolution k t to_ticks g cz b P pr pf src steps lines fuel false wr traj rg l fs = Ok (w2, fs') /\
    same_but_log (fst w') (fst w2) /\ snd w2 = snd w' /\
    wlog (fst w') = (l ++ new)%list /\ wlog (fst w2) = (l ++ filter of_step new)%list.
Proof.
  unfold soil_evolution. intros E. apply bind_ok in E as (ps & -> & E). cbn [bind].
  apply bind_ok in E as (s & Es & E). rewrite Es. cbn [bind].
  apply bind_ok in E as (v & _ & E).
  apply (loop_checks_inert (K := FltR) (wgeom k t to_ticks g b P lines) (wgrid t g cz) P k pr pf src (at_pose b) fuel wr v 0) in E as (w2 & new & E & S & Q & L1 & L2).
  cbn [fst] in L1, L2. rewrite (whole_init_log _ _ _ _ _ Es) in L1, L2.
  exists w2, new. auto.
Qed.

Lemma ex_checks_inert o lines : grid_fuel ex_g <= Z.of_nat lines ->
  forall to_ticks pr pf src rg l wr fs, exists N, forall fuel, (N <= fuel)%nat ->
  let prog chk := soil_evolution Bucket ex_t to_ticks ex_g ex_cz ex_b ex_P pr pf src (Z.to_nat 5001) lines
    fuel chk wr (ex_traj o) rg l fs in
  exists w' w2 fs' new, prog true = Ok (w', fs') /\ prog false = Ok (w2, fs') /\
    same_but_log (fst w') (fst w2) /\ snd w2 = snd w' /\
    wlog (fst w') = (l ++ new)%list /\ wlog (fst w2) = (l ++ filter of_step new)%list.
Proof.
  intros Hl to_ticks pr pf src rg l wr fs.
  destruct (ex_evolution o lines Hl) as (ps & _ & _ & R).
  destruct (R to_ticks pr pf src rg l) as (start & _ & _ & Q).
  destruct (Q true wr fs) as (w' & N & new0 & T & _).
  exists N. intros fuel Hf prog. destruct (T fuel Hf) as ((fs' & F & _) & _).
  destruct (evolution_checks_inert _ _ _ _ _ _ _ _ _ _ _ _ _ _ _ _ _ _ _ _ F) as (w2 & new & E & X).
  exists w', w2, fs', new. split; [exact F|]. split; [exact E|]. exact X.
Qed.
