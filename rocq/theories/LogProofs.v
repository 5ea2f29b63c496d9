(** The log is never read: a change of the warnings already in it changes nothing else. *)
From Coq Require Import ZArith List Bool Lia.
From Verif Require Import Outcome Num State Base ModelRelax ModelIntersect ModelBodySoil ModelBodyPos
  ModelUtils ModelStep ModelCheckLoop.
Import ListNotations.
Open Scope Z_scope.
Open Scope num_scope.

(** The warnings of Step; the others are those of Check. *)
Definition of_step (w : warning) : bool :=
  match w with WRemoved | WToTerrain | WLargeMove => true | WRecords | WVolume | WSoil => false end.

Definition omap {X Y} (f : X -> Y) (m : outcome X) : outcome Y :=
  match m with Ok a => Ok (f a) | UB r => UB r | OutOfFuel => OutOfFuel end.

Lemma omap_bind {X Y X' Y'} (f : X -> X') (h : Y -> Y') (m : outcome X) (k : X -> outcome Y) k' :
  (forall a, k' (f a) = omap h (k a)) -> bind (omap f m) k' = omap h (bind m k).
Proof. intros H. destruct m; cbn; auto. Qed.

Lemma bind_omap {X Y Y'} (h : Y -> Y') (m : outcome X) (k : X -> outcome Y) k' :
  (forall a, k' a = omap h (k a)) -> bind m k' = omap h (bind m k).
Proof. intros H. destruct m; cbn; auto. Qed.

Lemma for_each_omap {X S S'} (h : S -> S') (f : X -> S -> outcome S) f' (l : list X) :
  (forall x s, f' x (h s) = omap h (f x s)) ->
  forall s, for_each l f' (h s) = omap h (for_each l f s).
Proof.
  intros H. induction l as [|x l IH]; intros s; cbn [for_each]; [reflexivity|].
  rewrite H. apply omap_bind. exact IH.
Qed.

Section Log.
  Context {A : Num}.
  (** A change of the log that commutes with the warnings of Step. *)
  Variable h : list warning -> list warning.
  Hypothesis Hh : forall x w, of_step w = true -> h (x ++ [w]) = h x ++ [w].

  Notation sim := (sim A).

  Definition relog (s : sim) : sim :=
    mkSim (nx s) (ny s) (equilibrium s) (terrain s) (body s) (body_soil s) (records s)
          (body_area s) (relax_area s) (impact_area s) (rng s) (h (wlog s)).
  Definition relog1 {X} (p : sim * X) : sim * X := (relog (fst p), snd p).
  Definition relog2 {X Y} (p : sim * X * Y) : sim * X * Y := (relog (fst (fst p)), snd (fst p), snd p).

  Lemma warn_relog s w : of_step w = true -> warn (relog s) w = relog (warn s w).
  Proof. intros H. unfold warn, relog. cbn. rewrite Hh by exact H. reflexivity. Qed.

  (** ** relax.cpp *)
  Section Relax.
    Variable frame : Z -> Z -> F A -> Pos A.
    Variable g : grid_t A.
    Variable dh : F A.
    Variable cb : Z.
    Variable tol : F A.

    Lemma locate_log s : locate_unstable_terrain_cell dh tol (relog s) = locate_unstable_terrain_cell dh tol s.
    Proof. reflexivity. Qed.

    Lemma onto_body_soil_log s two k o i j ic jc :
      terrain_onto_body_soil frame g dh tol (relog s) two k o i j ic jc =
      relog (terrain_onto_body_soil frame g dh tol s two k o i j ic jc).
    Proof.
      unfold terrain_onto_body_soil. cbn [relog terrain body body_soil].
      destruct (two && _ && _); reflexivity.
    Qed.
    Lemma onto_body_log s two k o i j ic jc :
      terrain_onto_body frame g dh tol (relog s) two k o i j ic jc =
      relog (terrain_onto_body frame g dh tol s two k o i j ic jc).
    Proof.
      unfold terrain_onto_body. cbn [relog terrain body body_soil].
      destruct (two && _ && _); reflexivity.
    Qed.

    Lemma unstable_terrain_log s st i j ic jc :
      relax_unstable_terrain_cell frame g dh tol (relog s) st i j ic jc =
      omap relog (relax_unstable_terrain_cell frame g dh tol s st i j ic jc).
    Proof.
      unfold relax_unstable_terrain_cell. rewrite !onto_body_soil_log, !onto_body_log.
      cbn [relog terrain body body_soil]. cbv zeta.
      repeat match goal with |- context [if ?b =? ?c then _ else _] => destruct (b =? c) end; cbn [bind omap];
        try reflexivity;
        match goal with |- context [if ?b then _ else _] => destruct b end; reflexivity.
    Qed.

    Lemma terrain_dir_log i j d s :
      relax_terrain_dir frame g dh tol i j d (relog s) = omap relog (relax_terrain_dir frame g dh tol i j d s).
    Proof.
      unfold relax_terrain_dir, guard. change (inb (relog s)) with (inb s).
      destruct (inb s i j && _); [|reflexivity]. cbv zeta.
      change (check_unstable_terrain_cell tol (relog s)) with (check_unstable_terrain_cell tol s).
      change (terrain (relog s)) with (terrain s).
      destruct (_ =? 0); [reflexivity|].
      change (set_equilibrium (relog s) false) with (relog (set_equilibrium s false)).
      apply unstable_terrain_log.
    Qed.

    Lemma terrain_cell_log c st :
      relax_terrain_cell frame g dh tol c (relog2 st) = omap relog2 (relax_terrain_cell frame g dh tol c st).
    Proof.
      destruct st as [[s box] dirs], c as [i j]. unfold relax_terrain_cell, relog2. cbn [fst snd].
      change (rng (relog s)) with (rng s). destruct (shuffle dirs (rng s)) as [dirs' r].
      change (set_rng (relog s) r) with (relog (set_rng s r)).
      rewrite (for_each_omap relog _ _ dirs' (terrain_dir_log i j)). apply omap_bind. reflexivity.
    Qed.

    Lemma relax_terrain_log s :
      relax_terrain frame g dh cb tol (relog s) = omap relog (relax_terrain frame g dh cb tol s).
    Proof.
      unfold relax_terrain. cbv zeta.
      change (set_equilibrium (relog s) true) with (relog (set_equilibrium s true)).
      rewrite locate_log. apply bind_omap. intros [|c0 cs]; [reflexivity|].
      change (rng (relog (set_equilibrium s true))) with (rng (set_equilibrium s true)).
      destruct (shuffle (c0 :: cs) _) as [cells r].
      change (set_rng (relog (set_equilibrium s true)) r) with (relog (set_rng (set_equilibrium s true) r)).
      set (s1 := set_rng (set_equilibrium s true) r). set (box := mkArea _ _ _ _).
      change ((relog s1, box, directions4)) with (relog2 (s1, box, directions4)).
      rewrite (for_each_omap relog2 _ _ cells terrain_cell_log). apply omap_bind.
      intros [[s2 box2] d2]. unfold relog2. cbn [fst snd].
      do 4 (apply bind_omap; intros ?). reflexivity.
    Qed.

    Lemma take_soil_log s nn e ind i j a b :
      take_soil tol (relog s) nn e ind i j a b = relog (take_soil tol s nn e ind i j a b).
    Proof. unfold take_soil. cbn [relog body_soil]. destruct (_ >. _); reflexivity. Qed.

    Lemma onto_terrain_log s d0 nn e ind i j ic jc :
      body_onto_terrain g dh tol (relog s) d0 nn e ind i j ic jc =
      relog (body_onto_terrain g dh tol s d0 nn e ind i j ic jc).
    Proof.
      unfold body_onto_terrain. cbn [relog terrain body body_soil]. cbv zeta.
      match goal with |- context [let '(x, y) := ?p in _] => destruct p as [u v] end.
      destruct (_ >. _); reflexivity.
    Qed.

    Lemma moved_log s e ind i j o : moved g dh tol (relog s) e ind i j o = moved g dh tol s e ind i j o.
    Proof. reflexivity. Qed.

    Lemma onto_single_log s soil k nn e ind i j ic jc :
      body_onto_single frame g dh tol (relog s) soil k nn e ind i j ic jc =
      relog1 (body_onto_single frame g dh tol s soil k nn e ind i j ic jc).
    Proof.
      unfold body_onto_single. cbv zeta. rewrite !moved_log.
      change (body (relog s)) with (body s). change (body_soil (relog s)) with (body_soil s).
      destruct soil; destruct (moved _ _ _ _ _ _ _ _ _) as [u v].
      - rewrite take_soil_log. reflexivity.
      - change (set_bs (relog s) k ic jc (body s (k + 1) ic jc))
          with (relog (set_bs s k ic jc (body s (k + 1) ic jc))).
        rewrite take_soil_log. reflexivity.
    Qed.

    Lemma onto_two_soil_log s k o nn e ind i j ic jc :
      body_onto_two_soil frame g dh tol (relog s) k o nn e ind i j ic jc =
      relog1 (body_onto_two_soil frame g dh tol s k o nn e ind i j ic jc).
    Proof.
      unfold body_onto_two_soil. cbv zeta. rewrite moved_log.
      change (body (relog s)) with (body s). change (body_soil (relog s)) with (body_soil s).
      change (is_bottom (relog s)) with (is_bottom s).
      destruct (moved _ _ _ _ _ _ _ _ _) as [u v].
      destruct (is_bottom s k ic jc && _ && _); [reflexivity|].
      match goal with |- context [take_soil tol (set_bs (relog s) ?a ?b ?c ?d)] =>
        change (set_bs (relog s) a b c d) with (relog (set_bs s a b c d)) end.
      rewrite take_soil_log. reflexivity.
    Qed.

    Lemma onto_two_body_log s k o nn e ind i j ic jc :
      body_onto_two_body frame g dh tol (relog s) k o nn e ind i j ic jc =
      relog1 (body_onto_two_body frame g dh tol s k o nn e ind i j ic jc).
    Proof.
      unfold body_onto_two_body. cbv zeta. rewrite moved_log.
      change (body (relog s)) with (body s).
      change (set_bs (relog s) k ic jc (body s (k + 1) ic jc))
        with (relog (set_bs s k ic jc (body s (k + 1) ic jc))).
      change (body_soil (relog s)) with (body_soil s).
      destruct (moved _ _ _ _ _ _ _ _ _) as [u v].
      set (s1 := set_bs s k ic jc _).
      change (is_bottom (relog s1)) with (is_bottom s1).
      change (body (relog s1)) with (body s1). change (body_soil (relog s1)) with (body_soil s1).
      assert (T : forall x, take_soil tol (set_bs (relog s1) (k + 1) ic jc x) nn e ind i j u v =
        relog (take_soil tol (set_bs s1 (k + 1) ic jc x) nn e ind i j u v)).
      { intros x. change (set_bs (relog s1) (k + 1) ic jc x) with (relog (set_bs s1 (k + 1) ic jc x)).
        apply take_soil_log. }
      rewrite !T. destruct (is_bottom s1 k ic jc); [|reflexivity].
      destruct (u -. tol >. _); [|reflexivity]. destruct (_ >. _); reflexivity.
    Qed.

    Lemma unstable_body_log s st pend nn e i j ind ic jc :
      relax_unstable_body_cell frame g dh tol (relog s) st pend nn e i j ind ic jc =
      relog1 (relax_unstable_body_cell frame g dh tol s st pend nn e i j ind ic jc).
    Proof.
      unfold relax_unstable_body_cell. cbv zeta.
      rewrite !onto_single_log, !onto_two_soil_log, !onto_two_body_log, !onto_terrain_log.
      repeat match goal with |- context [if ?b =? ?c then _ else _] => destruct (b =? c) end; reflexivity.
    Qed.

    Lemma body_dir_log nn i j ind d st :
      relax_body_dir frame g dh tol nn i j ind d (relog1 st) =
      omap relog1 (relax_body_dir frame g dh tol nn i j ind d st).
    Proof.
      destruct st as [s pend]. unfold relax_body_dir, relog1 at 1, guard. cbn [fst snd].
      change (inb (relog s)) with (inb s). destruct (layer_ok ind && _ && _); [|reflexivity]. cbv zeta.
      change (check_unstable_body_cell tol (relog s)) with (check_unstable_body_cell tol s).
      change (body_soil (relog s)) with (body_soil s). change (records (relog s)) with (records s).
      destruct (check_unstable_body_cell _ _ _ _ _ _ _ _) as [st|]; [|reflexivity].
      destruct (nth_error (records s) nn); [|reflexivity].
      destruct (st =? 0); [reflexivity|].
      change (set_equilibrium (relog s) false) with (relog (set_equilibrium s false)).
      rewrite unstable_body_log. reflexivity.
    Qed.

    Lemma body_record_log nn st :
      relax_body_record frame g dh tol nn (relog2 st) = omap relog2 (relax_body_record frame g dh tol nn st).
    Proof.
      destruct st as [[s pend] dirs]. unfold relax_body_record, relog2 at 1. cbn [fst snd].
      change (records (relog s)) with (records s). destruct (nth_error (records s) nn) as [e|]; [|reflexivity].
      destruct (_ <. _); [reflexivity|].
      change (rng (relog s)) with (rng s). destruct (shuffle dirs (rng s)) as [dirs' r].
      change ((set_rng (relog s) r, pend)) with (relog1 (set_rng s r, pend)).
      rewrite (for_each_omap relog1 _ _ dirs' (body_dir_log nn (e_i e) (e_j e) (e_ind e))).
      apply omap_bind. intros [s2 p2]. reflexivity.
    Qed.

    Lemma relax_body_soil_log s :
      relax_body_soil frame g dh tol (relog s) = omap relog (relax_body_soil frame g dh tol s).
    Proof.
      unfold relax_body_soil. change (records (relog s)) with (records s).
      change ((relog s, @nil (rec_t A), directions4)) with (relog2 (s, @nil (rec_t A), directions4)).
      rewrite (for_each_omap relog2 _ _ _ body_record_log).
      apply omap_bind. intros [[s2 p2] d2]. reflexivity.
    Qed.
  End Relax.

  (** ** intersecting_cells.cpp *)
  Section Intersect.
    Variable frame : Z -> Z -> F A -> Pos A.
    Variable tol : F A.

    Lemma move_single_log s w m k i j :
      move_single frame tol (relog s) w m k i j = relog1 (move_single frame tol s w m k i j).
    Proof.
      unfold move_single. cbv zeta. change (soil_present (relog s)) with (soil_present s).
      cbn [relog terrain body body_soil].
      destruct (_ >. _); [reflexivity|]. destruct (_ >. _); [reflexivity|].
      destruct (soil_present s k i j); reflexivity.
    Qed.

    Lemma move_between_log s w i j :
      move_between frame tol (relog s) w i j = relog1 (move_between frame tol s w i j).
    Proof.
      unfold move_between. cbv zeta. change (soil_present (relog s)) with (soil_present s).
      change (body (relog s)) with (body s). change (body_soil (relog s)) with (body_soil s).
      destruct (if body s 0 i j <. body s 2 i j then (0, 2) else (2, 0)) as [kb kt].
      destruct (soil_present s kb i j); cbn [andb].
      - destruct (_ >. _); [reflexivity|]. destruct (_ <. _); reflexivity.
      - destruct (_ <. _); reflexivity.
    Qed.

    Lemma move_body_soil_log s w m i j :
      move_body_soil frame tol (relog s) w m i j = omap relog1 (move_body_soil frame tol s w m i j).
    Proof.
      unfold move_body_soil, guard. cbv zeta. rewrite !move_single_log, move_between_log.
      change (inb (relog s)) with (inb s). change (body_absent (relog s)) with (body_absent s).
      destruct (inb s i j && _); [|reflexivity].
      destruct (body_absent s 0 i j), (body_absent s 2 i j); reflexivity.
    Qed.

    Lemma explore_log fuel : forall s w m i j d pp,
      explore frame tol fuel (relog s) w m i j d pp = omap relog1 (explore frame tol fuel s w m i j d pp).
    Proof.
      induction fuel as [|fuel IH]; intros s w m i j d pp; cbn [explore];
        (destruct (negb (w_wall w) && _); [|reflexivity]); [reflexivity|].
      cbv zeta. rewrite move_body_soil_log. apply omap_bind. intros [s2 w2]. unfold relog1 at 1. cbn [fst snd].
      unfold guard. change (inb (relog s2)) with (inb s2). change (body (relog s2)) with (body s2).
      destruct (inb s2 _ _); [apply IH|reflexivity].
    Qed.

    Lemma explore_all_log fuel dirs : forall s ind ind_t i j x,
      explore_all frame tol fuel dirs (relog s) ind ind_t i j x =
      omap relog1 (explore_all frame tol fuel dirs s ind ind_t i j x).
    Proof.
      induction dirs as [|d dirs IH]; intros s ind ind_t i j x; cbn [explore_all]; [reflexivity|].
      change (body (relog s)) with (body s). rewrite explore_log. apply omap_bind.
      intros [s2 w2]. unfold relog1 at 1. cbn [fst snd]. destruct (_ <. _); [reflexivity|apply IH].
    Qed.

    Lemma move_record_log fuel nn e s dirs :
      move_record frame tol fuel nn e (relog s) dirs = omap relog1 (move_record frame tol fuel nn e s dirs).
    Proof.
      unfold move_record, guard. cbv zeta.
      change (inb (relog s)) with (inb s). change (body_absent (relog s)) with (body_absent s).
      change (body (relog s)) with (body s). change (body_soil (relog s)) with (body_soil s).
      destruct (layer_ok _ && _); [|reflexivity]. set (it := if e_ind e =? 0 then 2 else 0).
      destruct (body_absent s it _ _); [reflexivity|].
      destruct (_ && _); [|reflexivity].
      assert (Q : forall x y, (let '(h0, s0) := (x, set_record_h (relog s) nn e y) in
        let '(dirs0, r) := shuffle dirs (rng (set_bs s0 (e_ind e + 1) (e_i e) (e_j e)
             (body_soil s0 (e_ind e + 1) (e_i e) (e_j e) -. h0))) in
        '(s1, h1) <- explore_all frame tol fuel dirs0 (set_rng (set_bs s0 (e_ind e + 1) (e_i e) (e_j e)
             (body_soil s0 (e_ind e + 1) (e_i e) (e_j e) -. h0)) r) (e_ind e) it (e_i e) (e_j e) h0 ;;
        Ok (if h1 >. tol then warn s1 WRemoved else s1, dirs0)) =
        omap relog1 (let '(h0, s0) := (x, set_record_h s nn e y) in
        let '(dirs0, r) := shuffle dirs (rng (set_bs s0 (e_ind e + 1) (e_i e) (e_j e)
             (body_soil s0 (e_ind e + 1) (e_i e) (e_j e) -. h0))) in
        '(s1, h1) <- explore_all frame tol fuel dirs0 (set_rng (set_bs s0 (e_ind e + 1) (e_i e) (e_j e)
             (body_soil s0 (e_ind e + 1) (e_i e) (e_j e) -. h0)) r) (e_ind e) it (e_i e) (e_j e) h0 ;;
        Ok (if h1 >. tol then warn s1 WRemoved else s1, dirs0))).
      { intros x y. cbv beta iota.
        change (set_record_h (relog s) nn e y) with (relog (set_record_h s nn e y)).
        set (s0 := set_record_h s nn e y).
        change (body_soil (relog s0)) with (body_soil s0).
        set (v := body_soil s0 _ _ _ -. x).
        change (set_bs (relog s0) (e_ind e + 1) (e_i e) (e_j e) v)
          with (relog (set_bs s0 (e_ind e + 1) (e_i e) (e_j e) v)).
        set (s1 := set_bs s0 _ _ _ v). change (rng (relog s1)) with (rng s1).
        destruct (shuffle dirs (rng s1)) as [dirs0 r].
        change (set_rng (relog s1) r) with (relog (set_rng s1 r)).
        rewrite explore_all_log. apply omap_bind. intros [s2 h2]. unfold relog1. cbn [fst snd omap].
        destruct (h2 >. tol); [rewrite warn_relog by reflexivity|]; reflexivity. }
      destruct (_ >. e_h e); apply Q.
    Qed.

    Lemma move_records_log fuel wf : forall nn s dirs,
      move_records frame tol fuel wf nn (relog s) dirs = omap relog (move_records frame tol fuel wf nn s dirs).
    Proof.
      induction fuel as [|fuel IH]; intros nn s dirs; cbn [move_records];
        change (records (relog s)) with (records s); (destruct (nth_error (records s) nn); [|reflexivity]);
        [reflexivity|].
      rewrite move_record_log. apply omap_bind. intros [s2 d2]. apply IH.
    Qed.

    Lemma spread_ring_log dirs : forall s i j pp x,
      spread_ring tol dirs (relog s) i j pp x = omap relog1 (spread_ring tol dirs s i j pp x).
    Proof.
      induction dirs as [|d dirs IH]; intros s i j pp x; cbn [spread_ring]; [reflexivity|].
      cbv zeta. unfold guard. change (inb (relog s)) with (inb s).
      change (body_absent (relog s)) with (body_absent s). change (body (relog s)) with (body s).
      change (terrain (relog s)) with (terrain s).
      destruct (inb s _ _); [|reflexivity]. destruct (body_absent s 0 _ _ && _); [reflexivity|].
      set (bb := if body_absent s 0 _ _ then _ else _).
      destruct (_ <. bb); [|apply IH]. destruct (_ <. x); [|reflexivity].
      change (set_t (relog s) (i + fst d * pp) (j + snd d * pp) bb)
        with (relog (set_t s (i + fst d * pp) (j + snd d * pp) bb)). apply IH.
    Qed.

    Lemma spread_log fuel dirs : forall s i j pp x,
      spread tol fuel dirs (relog s) i j pp x = omap relog (spread tol fuel dirs s i j pp x).
    Proof.
      induction fuel as [|fuel IH]; intros s i j pp x; cbn [spread];
        (destruct (x >. tol); [|reflexivity]); [reflexivity|].
      cbv zeta. rewrite spread_ring_log. apply omap_bind. intros [s2 x2]. apply IH.
    Qed.

    Lemma terrain_cell_moved_log fuel c st :
      move_terrain_cell tol fuel c (relog1 st) = omap relog1 (move_terrain_cell tol fuel c st).
    Proof.
      destruct c as [[ind i] j], st as [s dirs]. unfold move_terrain_cell, relog1 at 1. cbn [fst snd].
      change (terrain (relog s)) with (terrain s). change (body (relog s)) with (body s).
      destruct (_ <. _); [reflexivity|]. change (rng (relog s)) with (rng s).
      destruct (shuffle dirs (rng s)) as [dirs' r].
      change (set_rng (relog s) r) with (relog (set_rng s r)). rewrite spread_log.
      apply omap_bind. reflexivity.
    Qed.

    Lemma move_intersecting_log fuel s :
      move_intersecting_cells frame tol fuel (relog s) = omap relog (move_intersecting_cells frame tol fuel s).
    Proof.
      unfold move_intersecting_cells, move_intersecting_body_soil. rewrite move_records_log.
      apply omap_bind. intros s2. unfold move_intersecting_body.
      change (locate_intersecting_cells tol (relog s2)) with (locate_intersecting_cells tol s2).
      apply bind_omap. intros cells. change ((relog s2, directions8)) with (relog1 (s2, directions8)).
      rewrite (for_each_omap relog1 _ _ cells (terrain_cell_moved_log fuel)).
      apply omap_bind. intros [s3 d3]. reflexivity.
    Qed.
  End Intersect.

  (** ** body_soil.cpp and body_pos.cpp *)
  Lemma update_record_log g tol reloc e s :
    update_record g tol reloc e (relog s) = omap relog (update_record g tol reloc e s).
  Proof.
    unfold update_record. destruct (f_below _ _); [reflexivity|]. cbv zeta.
    apply bind_omap. intros r.
    assert (F : forall dirs best, find_wall g tol (relog s) r dirs best = find_wall g tol s r dirs best).
    { induction dirs as [|d dirs IH]; intros best; cbn [find_wall]; [reflexivity|].
      cbv zeta. change (inb (relog s)) with (inb s). change (try_layer g tol (relog s)) with (try_layer g tol s).
      unfold guard. destruct (inb s _ _); [|reflexivity].
      destruct (try_layer _ _ _ 0 _ _ _ _) as [[|] b1]; [reflexivity|].
      destruct (try_layer _ _ _ 2 _ _ _ _) as [[|] b2]; [reflexivity|apply IH]. }
    rewrite F. apply bind_omap. intros [[[[i j] k]|] best]; [reflexivity|].
    destruct (_ !=. _).
    - destruct (fst best) as [[[i j] k]|]; reflexivity.
    - unfold guard. change (inb (relog s)) with (inb s). destruct (inb s _ _); [|reflexivity].
      cbn [omap]. rewrite <- warn_relog by reflexivity. reflexivity.
  Qed.

  Lemma reset_record_log e (s : sim) : reset_record e (relog s) = omap relog (reset_record e s).
  Proof. unfold reset_record, guard. change (inb (relog s)) with (inb s). destruct (_ && _); reflexivity. Qed.

  Lemma update_body_soil_log g tol reloc s :
    update_body_soil g tol reloc (relog s) = omap relog (update_body_soil g tol reloc s).
  Proof.
    unfold update_body_soil. cbv zeta. change (records (relog s)) with (records s).
    rewrite (for_each_omap relog _ _ _ reset_record_log). apply omap_bind. intros s2.
    change (set_records (relog s2) []) with (relog (set_records s2 [])).
    apply for_each_omap. intros e s3. apply update_record_log.
  Qed.

  Lemma include_log tol (s : sim) i j a b :
    include_new_body_pos tol (relog s) i j a b = omap relog (include_new_body_pos tol s i j a b).
  Proof.
    unfold include_new_body_pos, guard. cbv zeta. change (inb (relog s)) with (inb s).
    change (layer_status tol (relog s)) with (layer_status tol s). change (body (relog s)) with (body s).
    destruct (inb s i j); [|reflexivity].
    destruct (layer_status tol s 0 i j a b) as [s0|]; [|reflexivity].
    destruct (layer_status tol s 2 i j a b) as [s2|]; [|reflexivity].
    cbn [omap]. f_equal.
    repeat match goal with |- context [if ?x then _ else _] => destruct x end; reflexivity.
  Qed.

  Lemma update_body_loop_log g tol l : forall (s : sim) i j a b,
    update_body_loop g tol l (relog s) i j a b = omap relog (update_body_loop g tol l s i j a b).
  Proof.
    induction l as [|[[i' j'] k] l IH]; intros s i j a b; cbn [update_body_loop]; [apply include_log|].
    destruct (_ || _).
    - rewrite include_log. apply omap_bind. intros s2. unfold guard. destruct (z_ok g k); [apply IH|reflexivity].
    - unfold guard. destruct (z_ok g k); [apply IH|reflexivity].
  Qed.

  Lemma calc_body_pos_log g tol a walls (s : sim) :
    calc_body_pos g tol a walls (relog s) = omap relog (calc_body_pos g tol a walls s).
  Proof.
    unfold calc_body_pos, clear_body. change (body_area (relog s)) with (body_area s).
    rewrite (for_each_omap relog (fun c (s : sim) => let '(i, j) := c in guard (inb s i j)
      (Ok (set_b (set_b (set_b (set_b s 0 i j f0) 1 i j f0) 2 i j f0) 3 i j f0)))).
    - apply omap_bind. intros s2.
      change (set_body_area (relog s2) a) with (relog (set_body_area s2 a)).
      apply for_each_omap. intros w s3. unfold update_body.
      destruct (sort3 w) as [|[[i j] k] l]; [reflexivity|].
      unfold guard. destruct (z_ok g k); [apply update_body_loop_log|reflexivity].
    - intros [i j] s2. unfold guard. change (inb (relog s2)) with (inb s2).
      destruct (inb s2 i j); reflexivity.
  Qed.

  (** ** Step *)
  Variable G : geom A.
  Variable g : grid_t A.
  Variable P : params A.

  Lemma relax_loop_log p n : forall s,
    relax_loop G g P p n (relog s) = omap relog (relax_loop G g P p n s).
  Proof.
    induction n as [|n IH]; intros s; cbn [relax_loop]; [reflexivity|].
    change (equilibrium (relog s)) with (equilibrium s). destruct (equilibrium s); [reflexivity|].
    assert (R : relax_round G g P p (relog s) = omap relog (relax_round G g P p s)).
    { unfold relax_round. cbv zeta.
      change (update_impact_area (relog s)) with (relog (update_impact_area s)).
      rewrite relax_terrain_log. apply omap_bind. intros s2.
      assert (E : shuffle_records (relog s2) = relog (shuffle_records s2)).
      { unfold shuffle_records. change (records (relog s2)) with (records s2).
        change (rng (relog s2)) with (rng s2). destruct (shuffle (records s2) (rng s2)). reflexivity. }
      rewrite E. apply relax_body_soil_log. }
    rewrite R. apply omap_bind. exact IH.
  Qed.

  Definition relog_w (w : world G) : world G := (relog (fst w), snd w).

  Lemma step_log fuel p w :
    step G g P fuel p (relog_w w) = omap (fun r => (relog_w (fst r), snd r)) (step G g P fuel p w).
  Proof.
    destruct w as [s old]. unfold step, relog_w at 1. cbn [fst snd].
    destruct (g_moved G old p) as [mv far].
    assert (E : (if far then warn (relog s) WLargeMove else relog s) =
      relog (if far then warn s WLargeMove else s)).
    { destruct far; [apply warn_relog|]; reflexivity. }
    rewrite E. set (s1 := if far then _ else _). destruct (negb mv); [reflexivity|].
    apply bind_omap. intros [a walls]. rewrite calc_body_pos_log. apply omap_bind. intros s2.
    rewrite update_body_soil_log. apply omap_bind. intros s3.
    rewrite move_intersecting_log. apply omap_bind. intros s4. cbv zeta.
    change (set_equilibrium (relog s4) false) with (relog (set_equilibrium s4 false)).
    rewrite relax_loop_log. apply omap_bind. reflexivity.
  Qed.

  Lemma run_log fuel ps : forall w, run G g P fuel ps (relog_w w) = omap relog_w (run G g P fuel ps w).
  Proof.
    induction ps as [|p ps IH]; intros w; cbn [run]; [reflexivity|].
    rewrite step_log. apply omap_bind. intros [w2 b]. apply IH.
  Qed.
End Log.
