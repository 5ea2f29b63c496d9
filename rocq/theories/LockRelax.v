(** The relaxation in lockstep: an arithmetic that agrees with the exact one on aligned
    heights avalanches the same soil. *)
From Coq Require Import ZArith List Bool Lia.
From Verif Require Import Outcome Num State ModelRelax Base Spec LockBase.
Import ListNotations.
Open Scope Z_scope.
Open Scope num_scope.

Section LockRelax.
  Context {A : Num}.
  Variable L : locked A.
  Local Notation N := (ZNum (exact L)).
  Local Notation W := (W L).
  Local Notation WB := (WB L).
  Local Notation rel := (rel L).
  Local Notation relr := (relr L).
  Variable frame : Z -> Z -> F A -> Pos A.
  Variable g : grid_t A.
  Variable g' : grid_t N.
  Hypothesis G : relg L g g'.
  Variable dA : F A.
  Variable dz : F N.
  Hypothesis Hd : W 1 dA dz.
  Variable buffer : Z.
  Local Notation tA := (l_tA L).
  Local Notation tz := (l_tz L).

  Lemma W_level a b x y : W 1 a x -> W 1 b y ->
    W 2 (level g dA tA a b) (level g' dz tz x y).
  Proof.
    intros H1 H2. unfold level. rewrite (rg_cA _ _ _ G), (rg_cz _ _ _ G).
    apply W_mid; auto.
  Qed.

  Lemma unstable_candidate_lock a s i j : rel 1 a s ->
    unstable_candidate dA tA a i j = unstable_candidate dz tz s i j.
  Proof.
    intros R. unfold unstable_candidate, guard.
    rewrite !(rel_inb _ _ _ _ _ _ R).
    destruct (inb s i j && inb s (i - 1) j && inb s (i + 1) j
           && inb s i (j - 1) && inb s i (j + 1)) eqn:E; auto.
    rewrite !andb_true_iff in E. destruct E as ((((E1 & E2) & E3) & E4) & E5).
    apply inb_grid in E1, E2, E3, E4, E5.
    wtests L. reflexivity.
  Qed.

  Lemma locate_lock a s : rel 1 a s ->
    locate_unstable_terrain_cell dA tA a = locate_unstable_terrain_cell dz tz s.
  Proof.
    intros R. unfold locate_unstable_terrain_cell. rewrite (rel_impact_area _ _ _ _ R).
    generalize (@nil (Z * Z)) at 2 4.
    induction (area_cells (impact_area s)) as [|c l IH]; intros acc; cbn [for_each]; auto.
    rewrite (unstable_candidate_lock a s) by auto.
    destruct (unstable_candidate dz tz s (fst c) (snd c)); cbn [bind];
      [apply IH | reflexivity | reflexivity].
  Qed.

  Lemma check_terrain_lock a s i j h h' : rel 1 a s -> on_grid s i j -> W 8 h h' ->
    check_unstable_terrain_cell tA a i j h = check_unstable_terrain_cell (A := N) tz s i j h'.
  Proof.
    intros R Hg Hh. unfold check_unstable_terrain_cell. cbv zeta.
    rewrite !(rel_body_absent L 1 a s), !(rel_soil_present L 1 a s) by (auto; lia).
    wtests L.
    destruct (_ <. _); auto.
    destruct (body_absent s 0 i j && body_absent s 2 i j); auto.
    destruct (body_absent s 0 i j); [reflexivity|].
    destruct (body_absent s 2 i j); [reflexivity|].
    destruct (body s 0 i j <. body s 2 i j);
      rewrite !(rel_soil_present L 1 a s) by (auto; lia); wtests L; reflexivity.
  Qed.

  Lemma check_body_lock a s i0 j0 ind i j h h' : rel 1 a s ->
    on_grid s i0 j0 -> on_grid s i j -> 0 <= ind < 3 -> W 8 h h' ->
    check_unstable_body_cell tA a i0 j0 ind i j h =
    check_unstable_body_cell (A := N) tz s i0 j0 ind i j h'.
  Proof.
    intros R Hg0 Hg Hi Hh. unfold check_unstable_body_cell. cbv zeta.
    rewrite !(rel_body_absent L 1 a s), !(rel_soil_present L 1 a s) by (auto; lia).
    wtests L.
    destruct (body_absent s 0 i j && body_absent s 2 i j); auto.
    destruct (body_absent s 0 i j); [reflexivity|].
    destruct (body_absent s 2 i j); [reflexivity|].
    destruct (body s 0 i j <. body s 2 i j);
      rewrite !(rel_soil_present L 1 a s) by (auto; lia); wtests L.
    all: repeat match goal with
      | |- context [if ?c then _ else _] => destruct c; cbv iota; wtests L; try reflexivity
      end.
  Qed.

  Lemma relr_mk k i j p h h' n : W n h h' -> relr n (mkRec k i j p h) (mkRec (A := N) k i j p h').
  Proof. intros Hh. repeat split; auto; apply Hh. Qed.

  Lemma terrain_onto_body_soil_lock a s two k o i j ic jc : rel 1 a s ->
    on_grid s i j -> on_grid s ic jc -> 0 <= k < 3 -> 0 <= o < 4 ->
    rel 8 (terrain_onto_body_soil frame g dA tA a two k o i j ic jc)
          (terrain_onto_body_soil (A := N) (fr L frame) g' dz tz s two k o i j ic jc).
  Proof.
    intros R Hg Hc Hk Ho. unfold terrain_onto_body_soil. cbv zeta.
    assert (HL : W 2 (level g dA tA (terrain a i j) (body_soil a (k + 1) ic jc))
      (level (A := N) g' dz tz (terrain s i j) (body_soil s (k + 1) ic jc)))
      by (apply W_level; ww).
    set (lv := level g dA tA _ _) in *. set (lv' := level g' dz _ _ _) in *.
    assert (HB : WB (body a (k + 1) ic jc) (body s (k + 1) ic jc)) by wbsyn.
    wtests L.
    destruct (two && _ && _); apply rel_push.
    1,3: apply rel_set_bs; [apply rel_set_t|]; [apply (rel_le L 1); [lia|exact R]|ww|ww].
    all: cbn; rewrite (fr_eq L frame ic jc _ _ HB); apply relr_mk; ww.
  Qed.

  Lemma terrain_onto_body_lock a s two k o i j ic jc : rel 1 a s ->
    on_grid s i j -> on_grid s ic jc -> 0 <= k < 3 -> 0 <= o < 4 ->
    rel 8 (terrain_onto_body frame g dA tA a two k o i j ic jc)
          (terrain_onto_body (A := N) (fr L frame) g' dz tz s two k o i j ic jc).
  Proof.
    intros R Hg Hc Hk Ho. unfold terrain_onto_body. cbv zeta.
    assert (HL : W 2 (level g dA tA (terrain a i j) (body a (k + 1) ic jc))
      (level (A := N) g' dz tz (terrain s i j) (body s (k + 1) ic jc)))
      by (apply W_level; ww).
    set (lv := level g dA tA _ _) in *. set (lv' := level g' dz _ _ _) in *.
    assert (HB : WB (body a (k + 1) ic jc) (body s (k + 1) ic jc)) by wbsyn.
    wtests L.
    destruct (two && _ && _); apply rel_push.
    1,3: apply rel_set_bs; [apply rel_set_bs; [apply rel_set_t|]|];
      [apply (rel_le L 1); [lia|exact R]|ww|ww|ww].
    all: cbn; rewrite (fr_eq L frame ic jc _ _ HB); apply relr_mk; ww.
  Qed.

  Lemma relax_terrain_cell_lock a s status i j ic jc : rel 1 a s ->
    on_grid s i j -> on_grid s ic jc ->
    sync (rel 8) (relax_unstable_terrain_cell frame g dA tA a status i j ic jc)
      (relax_unstable_terrain_cell (A := N) (fr L frame) g' dz tz s status i j ic jc).
  Proof.
    intros R Hg Hc. unfold relax_unstable_terrain_cell. cbv zeta.
    assert (HL : W 2 (level g dA tA (terrain a i j) (terrain a ic jc))
      (level (A := N) g' dz tz (terrain s i j) (terrain s ic jc)))
      by (apply W_level; ww).
    set (lv := level g dA tA _ _) in *. set (lv' := level g' dz _ _ _) in *.
    assert (T : forall v v' x x', W 8 v x -> W 8 v' x' ->
      rel 8 (set_t (set_t a i j v) ic jc v') (set_t (set_t s i j x) ic jc x')).
    { intros. apply rel_set_t; auto. apply rel_set_t; auto. apply (rel_le L 1); [lia|exact R]. }
    destruct (status mod 10 =? 0).
    - destruct (status / 10 =? 4).
      + apply sync_ok. apply T; ww.
      + apply sync_bind with (R := WB).
        * destruct (status / 10 =? 1); [apply sync_ok; wbsyn|].
          destruct (status / 10 =? 2); [apply sync_ok; wbsyn|].
          destruct (status / 10 =? 3); [apply sync_ok; wbsyn|]. exact I.
        * intros b b' _ Hb. wtests L.
          destruct (_ <. _); apply sync_ok; apply T; ww.
    - repeat match goal with |- context [if ?c then Ok _ else _] => destruct c end;
        apply sync_ok; auto.
      + apply terrain_onto_body_soil_lock; auto; lia.
      + apply terrain_onto_body_lock; auto; lia.
      + apply terrain_onto_body_soil_lock; auto; lia.
      + apply terrain_onto_body_lock; auto; lia.
      + apply (rel_le L 1); [lia|exact R].
  Qed.

  Lemma relax_terrain_dir_lock a s i j d : rel 1 a s ->
    sync (rel 8) (relax_terrain_dir frame g dA tA i j d a)
      (relax_terrain_dir (A := N) (fr L frame) g' dz tz i j d s).
  Proof.
    intros R. unfold relax_terrain_dir. cbv zeta. rewrite !(rel_inb _ _ _ _ _ _ R).
    apply sync_guard; [reflexivity|]. intros E. rewrite andb_true_iff in E. destruct E as (E1 & E2).
    apply inb_grid in E1, E2.
    erewrite (check_terrain_lock a s) by (first [eassumption | ww]).
    destruct (_ =? 0).
    - apply sync_ok. apply (rel_le L 1); [lia|exact R].
    - apply relax_terrain_cell_lock; auto. apply rel_set_equilibrium; auto.
  Qed.

  Ltac dif := match goal with |- context [if ?c then _ else _] => destruct c end.

  Lemma take_soil_lock n a s nn e e' ind i j hn hs hn' hs' : rel n a s -> relr n e e' ->
    on_grid s i j -> 0 <= ind < 3 -> 0 <= n <= 8 -> W n hn hn' -> W n (e_h e -. hs) (e_h e' -. hs') ->
    rel n (take_soil tA a nn e ind i j hn hs) (take_soil (A := N) tz s nn e' ind i j hn' hs').
  Proof.
    intros R He Hg Hi Hn H1 H2. unfold take_soil. wtests L.
    dif.
    - eapply rel_set_record_h; [|exact He|exact H2]. apply rel_set_bs; auto.
    - eapply rel_set_record_h; [|exact He|apply W_0; lia].
      apply rel_set_bs; [apply rel_set_bs|]; auto; apply W_0; lia.
  Qed.

  Lemma relr_h n e e' : relr n e e' -> W n (e_h e) (e_h e').
  Proof. intros (_ & _ & _ & _ & He). exact He. Qed.

  Ltac up R := apply (rel_le L 1); [lia|exact R].

  Lemma body_onto_terrain_lock a s d0 nn e e' ind i j ic jc : rel 1 a s -> relr 1 e e' ->
    on_grid s i j -> on_grid s ic jc -> 0 <= ind < 3 ->
    rel 8 (body_onto_terrain g dA tA a d0 nn e ind i j ic jc)
          (body_onto_terrain (A := N) g' dz tz s d0 nn e' ind i j ic jc).
  Proof.
    intros R He Hg Hc Hi. pose proof (relr_h _ _ _ He) as Heh.
    unfold body_onto_terrain. cbv zeta.
    assert (HL : W 2 (level g dA tA (body_soil a (ind + 1) i j) (terrain a ic jc))
      (level (A := N) g' dz tz (body_soil s (ind + 1) i j) (terrain s ic jc)))
      by (apply W_level; ww).
    set (lv := level g dA tA _ _) in *. set (lv' := level g' dz _ _ _) in *.
    wtests L.
    destruct (e_h e' <. _);
    wtests L;
    match goal with
    | |- rel 8 (let '(x, y) := ?p in @?f x y) (let '(x', y') := ?p' in @?f' x' y') =>
        assert (P : W 3 (fst p) (fst p') /\ W 4 (snd p) (snd p'));
        [|destruct p as [hh hc], p' as [hh' hc']; cbn [fst snd] in P;
          destruct P as [P1 P2]]
    end.
    1,3: destruct (d0 =? 1); [|destruct (d0 =? 2)]; try dif; split; cbn [fst snd]; ww.
    all: wtests L; dif.
    1,3: eapply rel_set_record_h; [|exact He|ww].
    1,2: apply rel_set_bs; [apply rel_set_t; [up R|ww]|ww].
    all: eapply rel_set_record_h; [|exact He|ww].
    all: repeat apply rel_set_bs; [apply rel_set_t; [up R|ww]|ww|ww].
  Qed.

  Lemma moved_lock a s e e' ind i j o o' : rel 1 a s -> relr 1 e e' ->
    on_grid s i j -> 0 <= ind < 3 -> W 1 o o' ->
    W 2 (fst (moved g dA tA a e ind i j o)) (fst (moved (A := N) g' dz tz s e' ind i j o')) /\
    W 3 (snd (moved g dA tA a e ind i j o)) (snd (moved (A := N) g' dz tz s e' ind i j o')).
  Proof.
    intros R He Hg Hi Ho. pose proof (relr_h _ _ _ He) as Heh.
    unfold moved. cbv zeta.
    assert (HL : W 2 (level g dA tA (body_soil a (ind + 1) i j) o)
      (level (A := N) g' dz tz (body_soil s (ind + 1) i j) o'))
      by (apply W_level; ww).
    set (lv := level g dA tA _ _) in *. set (lv' := level g' dz _ _ _) in *.
    wtests L.
    dif; cbn [fst snd]; split; ww.
  Qed.

  Ltac go_moved R He Hg Hi onto onto' :=
    let M1 := fresh "M" in let M2 := fresh "M" in
    match goal with
    | |- context [moved g dA tA ?a ?e ?ind ?i ?j ?o] =>
      match goal with
      | |- context [@moved N g' dz tz ?s ?e' ind i j ?o'] =>
        assert (M1 := moved_lock a s e e' ind i j o o' R He Hg Hi ltac:(ww));
        destruct (moved g dA tA a e ind i j o) as [hn hs];
        destruct (@moved N g' dz tz s e' ind i j o') as [hn' hs'];
        cbn [fst snd] in M1; destruct M1 as [M1 M2]
      end
    end.

  Lemma body_onto_single_lock a s soil k nn e e' ind i j ic jc : rel 1 a s -> relr 1 e e' ->
    on_grid s i j -> on_grid s ic jc -> 0 <= ind < 3 -> 0 <= k < 3 ->
    rel 8 (fst (body_onto_single frame g dA tA a soil k nn e ind i j ic jc))
          (fst (body_onto_single (A := N) (fr L frame) g' dz tz s soil k nn e' ind i j ic jc)) /\
    relr 8 (snd (body_onto_single frame g dA tA a soil k nn e ind i j ic jc))
          (snd (body_onto_single (A := N) (fr L frame) g' dz tz s soil k nn e' ind i j ic jc)).
  Proof.
    intros R He Hg Hc Hi Hk. pose proof (relr_h _ _ _ He) as Heh.
    assert (HB : WB (body a (k + 1) ic jc) (body s (k + 1) ic jc)) by wbsyn.
    unfold body_onto_single. cbv zeta. destruct soil.
    - go_moved R He Hg Hi o o'. cbn [fst snd].
      assert (R4 : rel 4 (take_soil tA a nn e ind i j hn hs)
        (take_soil (A := N) tz s nn e' ind i j hn' hs')).
      { apply take_soil_lock; auto; try lia.
        - up R.
        - apply (relr_le L 1); [lia|exact He].
        - ww.
        - ww. }
      assert (D : nx (take_soil (A := N) tz s nn e' ind i j hn' hs') = nx s /\
                  ny (take_soil (A := N) tz s nn e' ind i j hn' hs') = ny s).
      { unfold take_soil. dif; split; reflexivity. }
      assert (Hc' : on_grid (take_soil (A := N) tz s nn e' ind i j hn' hs') ic jc).
      { unfold on_grid in *. destruct D as (-> & ->). exact Hc. }
      clear R. split.
      + apply rel_set_bs; [apply (rel_le L 4); [lia|exact R4]|ww].
      + rewrite (fr_eq L frame ic jc _ _ HB). apply relr_mk. ww.
    - go_moved R He Hg Hi o o'. cbn [fst snd]. split.
      + apply rel_set_bs; [|ww]. apply take_soil_lock; auto; try lia; try ww.
        * apply rel_set_bs; [up R|ww].
        * apply (relr_le L 1); [lia|exact He].
      + rewrite (fr_eq L frame ic jc _ _ HB). apply relr_mk. ww.
  Qed.

  Lemma is_bottom_lock n a s k ic jc : rel n a s -> on_grid s ic jc ->
    is_bottom a k ic jc = is_bottom s k ic jc.
  Proof.
    intros R Hc. unfold is_bottom.
    destruct (k =? 2); wtests L; reflexivity.
  Qed.

  Lemma body_onto_two_soil_lock a s k o nn e e' ind i j ic jc : rel 1 a s -> relr 1 e e' ->
    on_grid s i j -> on_grid s ic jc -> 0 <= ind < 3 -> 0 <= k < 3 -> 0 <= o < 3 ->
    rel 8 (fst (body_onto_two_soil frame g dA tA a k o nn e ind i j ic jc))
          (fst (body_onto_two_soil (A := N) (fr L frame) g' dz tz s k o nn e' ind i j ic jc)) /\
    Forall2 (relr 8) (snd (body_onto_two_soil frame g dA tA a k o nn e ind i j ic jc))
          (snd (body_onto_two_soil (A := N) (fr L frame) g' dz tz s k o nn e' ind i j ic jc)).
  Proof.
    intros R He Hg Hc Hi Hk Ho. pose proof (relr_h _ _ _ He) as Heh.
    assert (HB : WB (body a (k + 1) ic jc) (body s (k + 1) ic jc)) by wbsyn.
    unfold body_onto_two_soil. cbv zeta.
    go_moved R He Hg Hi o o'.
    rewrite (is_bottom_lock 1 a s) by auto. wtests L.
    match goal with
    | |- context [let '(x, y) := ?p in (_, if y >. l_tA L then _ else _)] =>
      match goal with
      | |- context [let '(x', y') := ?p' in (_, if y' >. l_tz L then _ else _)] =>
        assert (P : rel 8 (fst p) (fst p') /\ W 3 (snd p) (snd p') /\
          WB (body (fst p) (k + 1) ic jc) (body (fst p') (k + 1) ic jc));
        [|destruct p as [a2 hs2], p' as [s2 hs2']; cbn [fst snd] in P;
          destruct P as (P1 & P2 & P3)]
      end
    end.
    { destruct (is_bottom s k ic jc && _ && _); cbn [fst snd]; (split; [|split]).
      - eapply rel_set_record_h; [|exact He|ww].
        repeat apply rel_set_bs; [up R|ww|ww].
      - ww.
      - exact HB.
      - apply take_soil_lock; auto; try lia; try ww.
        + apply rel_set_bs; [up R|ww].
        + apply (relr_le L 1); [lia|exact He].
      - ww.
      - unfold take_soil. repeat dif; exact HB. }
    cbn [fst snd]. split; auto. wtests L.
    dif; constructor; [|constructor].
    rewrite (fr_eq L frame ic jc _ _ P3). apply relr_mk. ww.
  Qed.

  Lemma body_onto_two_body_lock a s k o nn e e' ind i j ic jc : rel 1 a s -> relr 1 e e' ->
    on_grid s i j -> on_grid s ic jc -> 0 <= ind < 3 -> 0 <= k < 3 -> 0 <= o < 3 ->
    rel 8 (fst (body_onto_two_body frame g dA tA a k o nn e ind i j ic jc))
          (fst (body_onto_two_body (A := N) (fr L frame) g' dz tz s k o nn e' ind i j ic jc)) /\
    relr 8 (snd (body_onto_two_body frame g dA tA a k o nn e ind i j ic jc))
          (snd (body_onto_two_body (A := N) (fr L frame) g' dz tz s k o nn e' ind i j ic jc)).
  Proof.
    intros R He Hg Hc Hi Hk Ho. pose proof (relr_h _ _ _ He) as Heh.
    assert (HB : WB (body a (k + 1) ic jc) (body s (k + 1) ic jc)) by wbsyn.
    unfold body_onto_two_body. cbv zeta.
    go_moved R He Hg Hi o o'.
    wtests L.
    set (pt := (body_soil s ind i j <. hn' -. tz)).
    assert (R1 : rel 1 (set_bs a k ic jc (body a (k + 1) ic jc))
                       (set_bs s k ic jc (body s (k + 1) ic jc)))
      by (apply rel_set_bs; [exact R|ww]).
    assert (HB1 : WB (body (set_bs a k ic jc (body a (k + 1) ic jc)) (k + 1) ic jc)
      (body (set_bs s k ic jc (body s (k + 1) ic jc)) (k + 1) ic jc)) by exact HB.
    assert (Hg1 : on_grid (set_bs s k ic jc (body s (k + 1) ic jc)) i j) by exact Hg.
    assert (Hc1 : on_grid (set_bs s k ic jc (body s (k + 1) ic jc)) ic jc) by exact Hc.
    set (a1 := set_bs a k ic jc (body a (k + 1) ic jc)) in *.
    set (s1 := set_bs s k ic jc (body s (k + 1) ic jc)) in *.
    rewrite (is_bottom_lock 1 a1 s1) by auto. wtests L.
    match goal with
    | |- context [let '(x, y) := ?p in (_, mkRec k ic jc (frame _ _ _) y)] =>
      match goal with
      | |- context [let '(x', y') := ?p' in (_, mkRec k ic jc (fr _ _ _ _ _) y')] =>
        assert (P : rel 8 (fst p) (fst p') /\ W 3 (snd p) (snd p'));
        [|destruct p as [a2 hs2], p' as [s2 hs2']; cbn [fst snd] in P;
          destruct P as (P1 & P2)]
      end
    end.
    { assert (T : forall v v', W 8 v v' ->
        rel 8 (take_soil tA (set_bs a1 (k + 1) ic jc v) nn e ind i j hn hs)
          (take_soil (A := N) tz (set_bs s1 (k + 1) ic jc v') nn e' ind i j hn' hs')).
      { intros v v' Hv. apply take_soil_lock; auto; try lia; try ww.
        + apply rel_set_bs; [up R1|exact Hv].
        + apply (relr_le L 1); [lia|exact He]. }
      destruct (is_bottom s1 k ic jc); [destruct pt; [dif|]|];
        cbn [fst snd]; split; try ww; try (apply T; ww).
      - eapply rel_set_record_h; [|exact He|ww].
        apply rel_set_bs; [apply rel_set_bs; [up R1|ww]|ww].
      - apply T. destruct (k =? 0); ww. }
    cbn [fst snd]. split; auto.
    rewrite (fr_eq L frame ic jc _ _ HB). apply relr_mk. ww.
  Qed.

  Definition relp (n : Z) (p : sim A * list (rec_t A)) (q : sim N * list (rec_t N)) : Prop :=
    rel n (fst p) (fst q) /\ Forall2 (relr n) (snd p) (snd q).

  Lemma relrs_le n m (l : list (rec_t A)) (l' : list (rec_t N)) :
    n <= m -> Forall2 (relr n) l l' -> Forall2 (relr m) l l'.
  Proof. intros Hn. induction 1; constructor; auto. eapply relr_le; eauto. Qed.

  Lemma relax_body_cell_lock a s st p p' nn e e' i j ind ic jc : rel 1 a s -> relr 1 e e' ->
    Forall2 (relr 1) p p' ->
    on_grid s i j -> on_grid s ic jc -> 0 <= ind < 3 ->
    relp 8 (relax_unstable_body_cell frame g dA tA a st p nn e i j ind ic jc)
      (relax_unstable_body_cell (A := N) (fr L frame) g' dz tz s st p' nn e' i j ind ic jc).
  Proof.
    intros R He Hp Hg Hc Hi. apply (relrs_le 1 8) in Hp; [|lia].
    assert (R8 : rel 8 a s) by up R.
    unfold relax_unstable_body_cell. cbv zeta.
    assert (T1 : forall q q', rel 8 (fst q) (fst q') /\ relr 8 (snd q) (snd q') ->
      relp 8 (fst q, p ++ [snd q]) (fst q', p' ++ [snd q'])).
    { intros q q' (Q1 & Q2). split; auto. apply Forall2_app; auto. }
    assert (T2 : forall q q', rel 8 (fst q) (fst q') /\ Forall2 (relr 8) (snd q) (snd q') ->
      relp 8 (fst q, p ++ snd q) (fst q', p' ++ snd q')).
    { intros q q' (Q1 & Q2). split; auto. apply Forall2_app; auto. }
    repeat match goal with |- context [if ?c then _ else _] => destruct c end;
      try (split; assumption).
    - split; auto. apply body_onto_terrain_lock; auto.
    - apply T1, body_onto_single_lock; auto; lia.
    - apply T1, body_onto_single_lock; auto; lia.
    - apply T1, body_onto_single_lock; auto; lia.
    - apply T1, body_onto_single_lock; auto; lia.
    - apply T2, body_onto_two_soil_lock; auto; lia.
    - apply T1, body_onto_two_body_lock; auto; lia.
    - apply T2, body_onto_two_soil_lock; auto; lia.
    - apply T1, body_onto_two_body_lock; auto; lia.
  Qed.

  Lemma relax_body_dir_lock p q nn i j ind d : relp 1 p q ->
    sync (relp 8) (relax_body_dir frame g dA tA nn i j ind d p)
      (relax_body_dir (A := N) (fr L frame) g' dz tz nn i j ind d q).
  Proof.
    destruct p as [a p], q as [s q]. intros (R & Hp). cbn [fst snd] in *.
    unfold relax_body_dir. cbv zeta. rewrite !(rel_inb _ _ _ _ _ _ R).
    apply sync_guard; [reflexivity|]. intros E. rewrite !andb_true_iff in E.
    destruct E as ((E0 & E1) & E2).
    unfold layer_ok in E0. rewrite andb_true_iff, Z.leb_le, Z.ltb_lt in E0.
    apply inb_grid in E1, E2.
    erewrite (check_body_lock a s) by (first [eassumption | ww]).
    destruct (check_unstable_body_cell _ _ _ _ _ _ _ _); [|exact I].
    pose proof (rel_nth L 1 a s nn R) as Hn.
    destruct (nth_error (records a) nn) as [e|], (nth_error (records s) nn) as [e'|];
      try tauto; try exact I.
    destruct (_ =? 0); apply sync_ok.
    - split; [up R|]. apply (relrs_le 1); [lia|exact Hp].
    - apply relax_body_cell_lock; auto. apply rel_set_equilibrium; auto.
  Qed.
End LockRelax.
