(** Elementary moves of soil from one cell to another. *)
From Coq Require Import ZArith List Bool Lia Permutation.
From Verif Require Import Outcome Num State Base Spec InvBase ModelRelax.
Import ListNotations.
Open Scope Z_scope.

(** Compute the operations of the exact instance. *)
Ltac zn := cbn [F D f0 fadd fsub fabs fltb feqb f_mid f_snap f_count f_below
                f_of_Z d_to_f d_sub_f ZNum] in *.

(** Look up updated heights. *)
Ltac upds :=
  cbn [nx ny equilibrium terrain body body_soil records
    body_area relax_area impact_area rng wlog set_t set_b set_bs set_records
    set_equilibrium set_body_area set_relax_area set_impact_area set_rng warn
    push_record set_record_h] in *;
  unfold upd2, upd3 in *; cbv beta in *.
Ltac kred :=
  change (2 - 0) with 2 in *; change (2 - 2) with 0 in *;
  change (0 + 1) with 1 in *; change (2 + 1) with 3 in *.
Ltac eqbs :=
  repeat match goal with
  | |- context [Z.eqb ?a ?b] => destruct (Z.eqb_spec a b); cbn [andb orb negb]
  end.

Section RelaxBase.
  Context {upm : units}.
  Local Notation sim := (sim (ZNum upm)).
  Local Notation rec := (rec_t (ZNum upm)).

  (** Nothing but soil (and [equilibrium], the generator, the relax and impact
      areas) changed, and the amount of soil is the same. *)
  Definition flows_w (s s' : sim) : Prop :=
    same_dims s s' /\ beq s s' /\ body_area s' = body_area s /\
    wlog s' = wlog s /\ total_soil s' = total_soil s.

  (** The areas did not change either. *)
  Definition flows (s s' : sim) : Prop :=
    flows_w s s' /\ relax_area s' = relax_area s /\
    impact_area s' = impact_area s.

  Lemma flows_w_refl s : flows_w s s.
  Proof. repeat split. Qed.

  Lemma flows_refl s : flows s s.
  Proof. repeat split. Qed.

  Lemma flows_w_trans s1 s2 s3 : flows_w s1 s2 -> flows_w s2 s3 -> flows_w s1 s3.
  Proof.
    intros ((A1 & A2) & A3 & A4 & A5 & A6) ((B1 & B2) & B3 & B4 & B5 & B6).
    split; [split; congruence|]. split; [intros k i j; rewrite B3; apply A3|].
    repeat split; congruence.
  Qed.

  Lemma flows_trans s1 s2 s3 : flows s1 s2 -> flows s2 s3 -> flows s1 s3.
  Proof.
    intros (A & A1 & A2) (B & B1 & B2).
    split; [eapply flows_w_trans; eauto|]. split; congruence.
  Qed.

  Lemma flows_intro (s s' : sim) :
    same_dims s s' -> beq s s' -> body_area s' = body_area s ->
    relax_area s' = relax_area s ->
    impact_area s' = impact_area s -> wlog s' = wlog s ->
    total_soil s' = total_soil s -> flows s s'.
  Proof. unfold flows, flows_w. tauto. Qed.

  Lemma digits d0 d1 : 0 <= d1 < 10 ->
    (10 * d0 + d1) / 10 = d0 /\ (10 * d0 + d1) mod 10 = d1.
  Proof. intros H. split; Z.div_mod_to_equations; lia. Qed.

  Lemma inb_true (s : sim) i j : inb s i j = true <-> on_grid s i j.
  Proof.
    unfold inb, on_grid. rewrite !andb_true_iff, !Z.leb_le, !Z.ltb_lt. tauto.
  Qed.

  Lemma on_grid_dims (s s' : sim) i j : same_dims s s' -> on_grid s i j -> on_grid s' i j.
  Proof. intros [E1 E2]. unfold on_grid. rewrite E1, E2. auto. Qed.

  Lemma beside_directions4 d : beside d <-> In d directions4.
  Proof.
    unfold beside, directions4. destruct d as [a b]. cbn [fst snd In]. split.
    - intros H. assert (C : (a = 1 \/ a = -1) /\ b = 0 \/ a = 0 /\ (b = 1 \/ b = -1)) by lia.
      destruct C as [[[->| ->] ->]|[-> [->| ->]]]; auto.
    - intros [E|[E|[E|[E|[]]]]]; injection E as <- <-; reflexivity.
  Qed.

  Lemma directions4_neighbour d i j :
    In d directions4 -> (i + fst d, j + snd d) <> (i, j) /\
      i - 1 <= i + fst d <= i + 1 /\ j - 1 <= j + snd d <= j + 1.
  Proof.
    cbn. intros [<-|[<-|[<-|[<-|[]]]]]; cbn [fst snd]; split;
      try lia; intros [= E]; lia.
  Qed.

  Lemma flows_inside (s s' : sim) i j : flows s s' -> inside s i j -> inside s' i j.
  Proof.
    intros (((E1 & E2) & _) & _). unfold inside. rewrite E1, E2. auto.
  Qed.

  Lemma chk_int_ok z : -2147483648 <= z <= 2147483647 -> chk_int z = Ok z.
  Proof.
    intros H. unfold chk_int, int_ok.
    rewrite (proj2 (Z.leb_le _ _)), (proj2 (Z.leb_le _ _)) by lia. reflexivity.
  Qed.

  (** The area does not reach the border of the grid. *)
  Definition area_in (s : sim) (a : area) : Prop :=
    1 <= x_lo a /\ x_hi a <= nx s - 1 /\ 1 <= y_lo a /\ y_hi a <= ny s - 1.

  Lemma area_in_inside (s : sim) a i j : area_in s a -> in_area a i j -> inside s i j.
  Proof. unfold area_in, in_area, inside. lia. Qed.

  Definition take_state (s : sim) (k i j h : Z) : sim :=
    set_bs (set_bs s k i j (taken_lo s k i j h)) (k + 1) i j (taken_hi s k i j h).

  Lemma take_state_set s k i j h :
    soil_set s (take_state s k i j h) k i j (taken_lo s k i j h) (taken_hi s k i j h).
  Proof.
    unfold take_state, soil_set. split; [split; auto|].
    split; [intros i' j'; reflexivity|]. split; [intros k' i' j'; reflexivity|].
    upds. split; [|split].
    - eqbs; auto; lia.
    - rewrite !Z.eqb_refl. reflexivity.
    - intros k' i' j' N. eqbs; auto; tauto.
  Qed.

  Variable near : Pos (ZNum upm) -> Prop.
  Variable cz : Z.
  Variable frame : Z -> Z -> Z -> Pos (ZNum upm).

  Definition frame_near (s : sim) : Prop :=
    forall i j k, on_grid s i j -> layer k -> body_at s k i j ->
      near (frame i j (body s (k + 1) i j)).

  (** The state is fine, [l] being all the records. *)
  Definition good (s : sim) (l : list rec) : Prop :=
    consistent near cz s l /\ terrain_below s /\ soil_below s /\ frame_near s.

  Lemma frame_near_beq s s' :
    same_dims s s' -> beq s s' -> frame_near s -> frame_near s'.
  Proof.
    intros (E1 & E2) Hb H i j k. specialize (H i j k).
    unfold on_grid, body_at in *. rewrite E1, E2, !Hb. auto.
  Qed.

  Lemma good_aligned (s : sim) l i j : good s l -> on_grid s i j ->
    aligned cz (terrain s i j) /\
    (forall k, 0 <= k < 4 -> aligned cz (body s k i j) /\ aligned cz (body_soil s k i j)).
  Proof. intros ((_ & _ & H & _) & _) Hg. apply (H i j Hg). Qed.

  Lemma good_body_cell (s : sim) l i j : good s l -> on_grid s i j -> cell_body s i j.
  Proof. intros ((_ & _ & H & _) & _) Hg. apply (H i j Hg). Qed.

  Lemma good_soil_cell (s : sim) l i j : good s l -> on_grid s i j -> cell_soil s l i j.
  Proof. intros ((_ & _ & H & _) & _) Hg. apply (H i j Hg). Qed.

  (** If layer [k] is below the other one, so is its top. *)
  Lemma good_disjoint (s : sim) l k i j : good s l -> on_grid s i j -> layer k ->
    body_at s k i j -> body_at s (2 - k) i j ->
    (body s k i j : Z) < body s (2 - k) i j ->
    (body s (k + 1) i j : Z) < body s (2 - k) i j.
  Proof.
    intros Hgood Hg Hk Hb Ho Hlt.
    destruct (good_body_cell s l i j Hgood Hg) as [A1 A2].
    destruct (A1 k Hk Hb) as [_ B1].
    assert (Lo : layer (2 - k)) by (unfold layer in *; lia).
    destruct (A1 (2 - k) Lo Ho) as [_ B2].
    destruct Hk as [->| ->]; kred; specialize (A2 ltac:(assumption) ltac:(assumption));
      lia.
  Qed.

  (** The new record of soil falling on layer [k] of cell [ic, jc]. *)
  Lemma new_rec_ok (s : sim) l k ic jc (h : Z) :
    good s l -> on_grid s ic jc -> layer k -> body_at s k ic jc ->
    0 <= h -> aligned cz h ->
    rec_ok near cz s
      (@mkRec (ZNum upm) k ic jc (frame ic jc (body s (k + 1) ic jc)) h).
  Proof.
    intros Hgood Hg Hk Hb Hh Ah.
    destruct (good_body_cell s l ic jc Hgood Hg) as [A1 _].
    destruct (A1 k Hk Hb) as [Hin _].
    destruct Hgood as (_ & _ & _ & Hf).
    split; [|split; [|split; [|split]]]; auto. cbn. apply Hf; auto.
  Qed.

  Lemma good_same s s' l : same_heights s s' -> good s l -> good s' l.
  Proof.
    intros E (H1 & H2 & H3 & H4). split; [|split; [|split]].
    - eapply consistent_same; eauto.
    - eapply terrain_below_same; eauto.
    - eapply soil_below_same; eauto.
    - destruct E as (? & ? & ? & ?). eapply frame_near_beq; eauto.
  Qed.

  Lemma good_permutation s l l' : Permutation l l' -> good s l -> good s l'.
  Proof.
    intros P (H1 & H2). split; auto. eapply consistent_permutation; eauto.
  Qed.

  (** ** Terrain to terrain *)
  Lemma good_terrain_terrain s l i j ic jc (v vc : Z) :
    good s l -> on_grid s i j -> on_grid s ic jc -> (ic, jc) <> (i, j) ->
    aligned cz v -> aligned cz vc ->
    v + vc = (terrain s i j : Z) + (terrain s ic jc : Z) ->
    v <= (terrain s i j : Z) ->
    (forall k, layer k -> body_at s k ic jc -> vc <= (body s k ic jc : Z)) ->
    let s' := set_t (set_t s i j v) ic jc vc in
    good s' l /\ total_soil s' = total_soil s.
  Proof.
    intros (H1 & H2 & H3 & H4) Hg Hgc N Av Avc Hsum Hle Hb s'.
    set (s1 := set_t s i j v) in *.
    assert (T1 : terrain_set s s1 i j v).
    { unfold s1. split; [split; auto|]. split; [intros k i' j'; reflexivity|].
      split; [intros k i' j'; reflexivity|]. upds.
      split; [rewrite !Z.eqb_refl; reflexivity|].
      intros i' j' Hn. eqbs; auto. tauto. }
    assert (T2 : terrain_set s1 s' ic jc vc).
    { unfold s'. split; [split; auto|]. split; [intros k i' j'; reflexivity|].
      split; [intros k i' j'; reflexivity|]. upds.
      split; [rewrite !Z.eqb_refl; reflexivity|].
      intros i' j' Hn. eqbs; auto. tauto. }
    destruct (consistent_terrain near cz s s1 l i j v H1 Hg Av T1) as (A1 & A2 & A3 & A4).
    destruct (consistent_terrain near cz s1 s' l ic jc vc A1 Hgc Avc T2)
      as (B1 & B2 & B3 & B4).
    assert (Tc : (terrain s1 ic jc : Z) = terrain s ic jc).
    { apply T1. intros [-> ->]. auto. }
    split; [split; [|split; [|split]]|]; auto.
    - apply B4; auto. apply A4; auto.
      intros k Hk Hbk. specialize (H2 i j k Hg Hk Hbk). cbn in *. lia.
    - rewrite B2, A2, Tc. lia.
  Qed.

  (** ** Terrain to body *)
  Lemma good_terrain_body s l s' i j (h : Z) e :
    good s l -> on_grid s i j -> rec_ok near cz s e ->
    (e_h e : Z) = h -> body_at s (e_ind e) (e_i e) (e_j e) ->
    soil_set (set_t s i j ((terrain s i j : Z) - h)) s' (e_ind e) (e_i e) (e_j e)
      (body s (e_ind e + 1) (e_i e) (e_j e))
      (column_top s (e_ind e) (e_i e) (e_j e) + h) ->
    (body_at s (2 - e_ind e) (e_i e) (e_j e) ->
     (body s (e_ind e) (e_i e) (e_j e) : Z) < body s (2 - e_ind e) (e_i e) (e_j e) ->
     column_top s (e_ind e) (e_i e) (e_j e) + h
     <= body s (2 - e_ind e) (e_i e) (e_j e)) ->
    good s' (l ++ [e]) /\ total_soil s' = total_soil s.
  Proof.
    intros (H1 & H2 & H3 & H4) Hg Hok Eh Hb Hset Hc.
    set (v := (terrain s i j : Z) - h) in *.
    set (s1 := set_t s i j v) in *.
    assert (T1 : terrain_set s s1 i j v).
    { unfold s1. split; [split; auto|]. split; [intros k i' j'; reflexivity|].
      split; [intros k i' j'; reflexivity|]. upds.
      split; [rewrite !Z.eqb_refl; reflexivity|].
      intros i' j' Hn. eqbs; auto. tauto. }
    pose proof Hok as (K1 & K2 & K3 & K4 & K5).
    assert (Av : aligned cz v).
    { apply aligned_sub.
      - destruct H1 as (_ & _ & H1 & _). apply (H1 i j Hg).
      - rewrite <- Eh. auto. }
    destruct (consistent_terrain near cz s s1 l i j v H1 Hg Av T1) as (A1 & A2 & A3 & A4).
    rewrite <- Eh in Hset, Hc.
    destruct (consistent_put near cz s1 s' l e A1 Hok Hb Hset) as (B1 & B2 & B3).
    split; [split; [|split; [|split]]|]; auto.
    - eapply soil_set_terrain_below; eauto. apply A4; auto.
      intros k Hk Hbk. specialize (H2 i j k Hg Hk Hbk). unfold v. cbn in *. lia.
    - destruct Hset as (? & ? & ? & ?). eapply frame_near_beq; eauto.
    - rewrite B2, A2, Eh. unfold v. lia.
  Qed.

  (** ** From the body *)

  Lemma good_take s l nn e (h : Z) :
    0 < cz -> good s l -> nth_error l nn = Some e ->
    0 <= h <= (e_h e : Z) -> aligned cz h ->
    let s1 := take_state s (e_ind e) (e_i e) (e_j e) h in
    good s1 (list_set l nn (rec_with_h e ((e_h e : Z) - h))) /\
    total_soil s1 = total_soil s - h.
  Proof.
    intros Hcz (H1 & H2 & H3 & H4) Hn Hh Ah s1.
    pose proof (take_state_set s (e_ind e) (e_i e) (e_j e) h) as T.
    destruct (consistent_take near cz s s1 l nn e h Hcz H1 Hn Hh Ah T) as (A1 & A2 & A3).
    split; auto. split; [|split; [|split]]; auto.
  Qed.

  (** Body to terrain. *)
  Lemma good_body_terrain s l s' nn e (h : Z) ic jc :
    0 < cz -> good s l -> nth_error l nn = Some e ->
    0 <= h <= (e_h e : Z) -> aligned cz h -> on_grid s ic jc ->
    terrain_set (take_state s (e_ind e) (e_i e) (e_j e) h) s' ic jc
      ((terrain s ic jc : Z) + h) ->
    (forall k, layer k -> body_at s k ic jc ->
       (terrain s ic jc : Z) + h <= (body s k ic jc : Z)) ->
    good s' (list_set l nn (rec_with_h e ((e_h e : Z) - h))) /\
    total_soil s' = total_soil s.
  Proof.
    intros Hcz Hgood Hn Hh Ah Hg Ht Hb.
    destruct (good_take s l nn e h Hcz Hgood Hn Hh Ah) as (A1 & A2).
    set (s1 := take_state s (e_ind e) (e_i e) (e_j e) h) in *.
    destruct A1 as (B1 & B2 & B3 & B4).
    assert (Av : aligned cz ((terrain s ic jc : Z) + h)).
    { apply aligned_add; auto. destruct Hgood as ((_ & _ & H1 & _) & _). apply H1; auto. }
    destruct (consistent_terrain near cz s1 s' _ ic jc _ B1 Hg Av Ht)
      as (C1 & C2 & C3 & C4).
    split; [split; [|split; [|split]]|]; auto.
    - destruct Ht as (? & ? & ?). eapply frame_near_beq; eauto.
    - rewrite C2, A2. change (terrain s1 ic jc) with (terrain s ic jc). lia.
  Qed.

  (** Body to body. *)
  Lemma good_body_body s l s' nn e (h : Z) e' :
    0 < cz -> good s l -> nth_error l nn = Some e ->
    0 <= h <= (e_h e : Z) -> aligned cz h ->
    rec_ok near cz s e' -> (e_h e' : Z) = h ->
    (e_i e', e_j e') <> (e_i e, e_j e) ->
    body_at s (e_ind e') (e_i e') (e_j e') ->
    soil_set (take_state s (e_ind e) (e_i e) (e_j e) h) s'
      (e_ind e') (e_i e') (e_j e')
      (body s (e_ind e' + 1) (e_i e') (e_j e'))
      (column_top s (e_ind e') (e_i e') (e_j e') + h) ->
    (body_at s (2 - e_ind e') (e_i e') (e_j e') ->
     (body s (e_ind e') (e_i e') (e_j e') : Z) < body s (2 - e_ind e') (e_i e') (e_j e') ->
     column_top s (e_ind e') (e_i e') (e_j e') + h
     <= body s (2 - e_ind e') (e_i e') (e_j e')) ->
    good s' (list_set l nn (rec_with_h e ((e_h e : Z) - h)) ++ [e']) /\
    total_soil s' = total_soil s.
  Proof.
    intros Hcz Hgood Hn Hh Ah Hok Eh N Hb Hset Hc.
    destruct (good_take s l nn e h Hcz Hgood Hn Hh Ah) as (A1 & A2).
    set (s1 := take_state s (e_ind e) (e_i e) (e_j e) h) in *.
    destruct A1 as (B1 & B2 & B3 & B4).
    pose proof (take_state_set s (e_ind e) (e_i e) (e_j e) h) as T. fold s1 in T.
    destruct T as (_ & _ & _ & _ & _ & T).
    assert (N' : ~ (e_i e' = e_i e /\ e_j e' = e_j e))
      by (intros [E1 E2]; apply N; congruence).
    assert (ET : column_top s1 (e_ind e') (e_i e') (e_j e')
                 = column_top s (e_ind e') (e_i e') (e_j e')).
    { unfold column_top, soil_present. rewrite !T by tauto. reflexivity. }
    rewrite <- ET, <- Eh in Hset. rewrite <- Eh in Hc.
    destruct (consistent_put near cz s1 s' _ e' B1 Hok Hb Hset) as (C1 & C2 & C3).
    split; [split; [|split; [|split]]|]; auto.
    - eapply soil_set_terrain_below; eauto.
    - apply C3; auto. rewrite ET. auto.
    - destruct Hset as (? & ? & ? & ?). eapply frame_near_beq; eauto.
    - rewrite C2, A2, Eh. lia.
  Qed.
End RelaxBase.

Arguments good_aligned {upm near cz frame} s l i j _ _.
Arguments good_body_cell {upm near cz frame} s l i j _ _.
Arguments good_soil_cell {upm near cz frame} s l i j _ _.
Arguments good_disjoint {upm near cz frame} s l k i j _ _ _ _ _ _.
Arguments new_rec_ok {upm near cz frame} s l k ic jc h _ _ _ _ _ _.
