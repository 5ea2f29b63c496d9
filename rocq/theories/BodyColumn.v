(** IncludeNewBodyPos seen as a function of the four heights of a column. *)
From Coq Require Import ZArith List Bool Lia.
From Verif Require Import Outcome Num.
Import ListNotations.
Open Scope Z_scope.

Section Column.
  Variable tol : Z.

  Definition present (lo hi : Z) : Prop := lo <> 0 \/ hi <> 0.

  (** Well formed pair of layers. *)
  Definition layers_ok (b0 b1 b2 b3 : Z) : Prop :=
    (present b0 b1 -> b0 < b1) /\ (present b2 b3 -> b2 < b3) /\
    (present b0 b1 -> present b2 b3 -> b1 + tol <= b2 \/ b3 + tol <= b0).

  (** [lo, hi] is inside one of the two layers. *)
  Definition within (lo hi c0 c1 c2 c3 : Z) : Prop :=
    (present c0 c1 /\ c0 <= lo /\ hi <= c1) \/ (present c2 c3 /\ c2 <= lo /\ hi <= c3).

  (** [c] is the bottom (resp. top) of a former layer or of the interval. *)
  Definition from (b0 b1 b2 b3 b b' lo c : Z) : Prop :=
    c = lo \/ (present b0 b1 /\ c = b) \/ (present b2 b3 /\ c = b').

  Definition status (b b' lo hi : Z) : option Z :=
    if (b =? 0) && (b' =? 0) then Some 0
    else if (lo - tol <? b) && (b <? hi + tol) then Some 1
    else if (lo - tol <? b') && (b' <? hi + tol) then Some 1
    else if (b <? lo + tol) && (hi - tol <? b') then None
    else Some (-1).

  Definition merged (b0 b1 b2 b3 lo hi : Z) : Z * Z * Z * Z :=
    match status b0 b1 lo hi with
    | None => (b0, b1, b2, b3)
    | Some st0 =>
        match status b2 b3 lo hi with
        | None => (b0, b1, b2, b3)
        | Some st1 =>
            if (st0 =? 1) && (st1 =? 1) then
              (fmin (A := ZNum (zunits 1)) (fmin (A := ZNum (zunits 1)) b0 b2) lo,
               fmax (A := ZNum (zunits 1)) (fmax (A := ZNum (zunits 1)) b1 b3) hi, 0, 0)
            else if st0 =? 1 then
              (fmin (A := ZNum (zunits 1)) b0 lo, fmax (A := ZNum (zunits 1)) b1 hi, b2, b3)
            else if st1 =? 1 then
              (b0, b1, fmin (A := ZNum (zunits 1)) b2 lo, fmax (A := ZNum (zunits 1)) b3 hi)
            else if st0 =? 0 then (lo, hi, b2, b3)
            else if st1 =? 0 then (b0, b1, lo, hi)
            else
              if fmin (A := ZNum (zunits 1)) (Z.abs (b0 - hi)) (Z.abs (lo - b1))
                 <? fmin (A := ZNum (zunits 1)) (Z.abs (b2 - hi)) (Z.abs (lo - b3)) then
                if Z.abs (b0 - hi) <? Z.abs (lo - b1) then (lo, b1, b2, b3)
                else (b0, hi, b2, b3)
              else
                if Z.abs (b2 - hi) <? Z.abs (lo - b3) then (b0, b1, lo, b3)
                else (b0, b1, b2, hi)
        end
    end.

  Definition merged_ok (b0 b1 b2 b3 lo hi c0 c1 c2 c3 : Z) : Prop :=
    layers_ok c0 c1 c2 c3 /\
    (present b0 b1 -> within b0 b1 c0 c1 c2 c3) /\
    (present b2 b3 -> within b2 b3 c0 c1 c2 c3) /\
    within lo hi c0 c1 c2 c3 /\
    (present c0 c1 -> from b0 b1 b2 b3 b0 b2 lo c0 /\ from b0 b1 b2 b3 b1 b3 hi c1) /\
    (present c2 c3 -> from b0 b1 b2 b3 b0 b2 lo c2 /\ from b0 b1 b2 b3 b1 b3 hi c3).

  Lemma present_00 : ~ present 0 0.
  Proof. unfold present. tauto. Qed.

  Lemma lt_present lo hi : lo < hi -> present lo hi.
  Proof. unfold present. lia. Qed.

  Lemma zmin a b : fmin (A := ZNum (zunits 1)) a b = Z.min a b.
  Proof. unfold fmin. cbn. destruct (Z.ltb_spec b a); lia. Qed.

  Lemma zmax a b : fmax (A := ZNum (zunits 1)) a b = Z.max a b.
  Proof. unfold fmax. cbn. destruct (Z.ltb_spec a b); lia. Qed.

  Definition sees (b b' lo hi : Z) (st : option Z) : Prop :=
    (b = 0 /\ b' = 0 /\ st = Some 0) \/
    (present b b' /\ st = Some 1 /\ lo < b' + tol /\ b < hi + tol) \/
    (present b b' /\ st = None /\ b <= lo /\ hi <= b') \/
    (present b b' /\ st = Some (-1) /\ (b' + tol <= lo \/ hi + tol <= b)).

  Lemma status_sees b b' lo hi :
    0 < tol -> lo < hi -> (present b b' -> b < b') -> sees b b' lo hi (status b b' lo hi).
  Proof.
    intros Ht Hl Hb. unfold status, sees, present in *.
    destruct (Z.eqb_spec b 0); destruct (Z.eqb_spec b' 0); cbn [andb];
      try (left; tauto); right.
    all: destruct (Z.ltb_spec (lo - tol) b); destruct (Z.ltb_spec b (hi + tol)); cbn [andb].
    all: try (left; split; [tauto|]; split; [reflexivity|]; lia).
    all: destruct (Z.ltb_spec (lo - tol) b'); destruct (Z.ltb_spec b' (hi + tol)); cbn [andb].
    all: try (left; split; [tauto|]; split; [reflexivity|]; lia).
    all: destruct (Z.ltb_spec b (lo + tol)); destruct (Z.ltb_spec (hi - tol) b'); cbn [andb].
    all: try (right; left; split; [tauto|]; split; [reflexivity|]; lia).
    all: right; right; split; [tauto|]; split; [reflexivity|]; lia.
  Qed.

  Lemma merged_spec b0 b1 b2 b3 lo hi :
    0 < tol -> lo < hi -> layers_ok b0 b1 b2 b3 ->
    let '(c0, c1, c2, c3) := merged b0 b1 b2 b3 lo hi in
    merged_ok b0 b1 b2 b3 lo hi c0 c1 c2 c3.
  Proof.
    intros Ht Hl (L1 & L2 & L3).
    pose proof (status_sees b0 b1 lo hi Ht Hl L1) as S0.
    pose proof (status_sees b2 b3 lo hi Ht Hl L2) as S1.
    unfold merged.
    destruct S0 as [(? & ? & E0)|[(P0 & E0 & ? & ?)|[(P0 & E0 & ? & ?)|(P0 & E0 & ?)]]];
    destruct S1 as [(? & ? & E1)|[(P1 & E1 & ? & ?)|[(P1 & E1 & ? & ?)|(P1 & E1 & ?)]]];
      rewrite ?E0, ?E1; clear E0 E1;
      cbn [Z.eqb Pos.eqb andb]; rewrite ?zmin, ?zmax.
    all: try specialize (L1 P0); try specialize (L2 P1);
      try specialize (L3 P0 P1).
    all: try subst b0; try subst b1; try subst b2; try subst b3.
    all: repeat match goal with L : present _ _ -> _ |- _ => clear L end.
    all: repeat match goal with
         | |- context [if ?a <? ?b then _ else _] => destruct (Z.ltb_spec a b)
         end.
    all: try clear P0; try clear P1.
    all: repeat match goal with
         | |- context [Z.min ?a ?b] => destruct (Z.min_spec a b) as [[? ->]|[? ->]]
         | |- context [Z.max ?a ?b] => destruct (Z.max_spec a b) as [[? ->]|[? ->]]
         end.
    all: unfold merged_ok, layers_ok.
    all: split; [split; [|split]|split; [|split; [|split; [|split]]]].
    all: repeat match goal with
         | |- present 0 0 -> _ => intros P; exfalso; exact (present_00 P)
         | |- present _ _ -> _ => intros _
         end.
    all: unfold within, from.
    all: try lia.
    all: try (left; split; [apply lt_present; lia | lia]).
    all: try (right; split; [apply lt_present; lia | lia]).
    all: split;
      first [ left; lia
            | right; left; split; [apply lt_present; lia | lia]
            | right; right; split; [apply lt_present; lia | lia] ].
  Qed.
End Column.
