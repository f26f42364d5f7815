(** * Comparisons of the arithmetic instances are total orders on numbers *)

From Coq Require Import Reals ZArith NArith Bool List Lia Lra.
From Coq Require Import Floats.SpecFloat.
From Flocq Require Import Core.Raux.
From Verif Require Import Arith SpecOrder.

Lemma total_on_xnum rnd eps tiny :
  total_on (xnum rnd eps tiny) finite_value.
Proof.
  constructor.
  - intros x y [r ->] [q ->]; cbn.
    destruct (Rle_bool_spec r q), (Rlt_bool_spec q r); try reflexivity; lra.
  - intros x y [r ->] [q ->]; cbn.
    destruct (Rlt_bool_spec r q), (Rlt_bool_spec q r); try reflexivity; try discriminate; lra.
  - intros x y z [r ->] [q ->] [t ->]; cbn.
    destruct (Rle_bool_spec r q), (Rle_bool_spec q t), (Rle_bool_spec r t);
      try reflexivity; try discriminate; lra.
Qed.

Lemma total_on_exact eps : total_on (exact eps) finite_value.
Proof. apply total_on_xnum. Qed.


Lemma sfcompare_opp x y : SFcompare y x =
  match SFcompare x y with
  | Some c => Some (CompOpp c)
  | None => None
  end.
Proof.
  destruct x as [[]|[]| |[] m e], y as [[]|[]| |[] m' e']; cbn; try reflexivity;
    rewrite (Z.compare_antisym e e'); destruct (Z.compare e e'); cbn; try reflexivity;
    f_equal; rewrite ?(Pos.compare_cont_antisym); cbn; try reflexivity;
    rewrite CompOpp_involutive; reflexivity.
Qed.

Lemma sfcompare_some x y : x <> S754_nan -> y <> S754_nan ->
  exists c, SFcompare x y = Some c.
Proof.
  destruct x as [[]|[]| |[] m e], y as [[]|[]| |[] m' e']; intros Hx Hy;
    cbn; try congruence; try (eexists; reflexivity);
    destruct (Z.compare e e'); eexists; reflexivity.
Qed.

(** A key that is ordered as the values are. *)
Definition sfkey (x : spec_float) : Z * (Z * Z) :=
  match x with
  | S754_zero _ => (0, (0, 0))
  | S754_infinity s => (if s then -2 else 2, (0, 0))
  | S754_nan => (0, (0, 0))
  | S754_finite s m e => (if s then -1 else 1,
                          if s then (- e, - Zpos m) else (e, Zpos m))
  end%Z.

Definition key_lt (a b : Z * (Z * Z)) : Prop :=
  (fst a < fst b \/ fst a = fst b /\
   (fst (snd a) < fst (snd b) \/
    fst (snd a) = fst (snd b) /\ snd (snd a) < snd (snd b)))%Z.

Lemma sfcompare_lt x y : x <> S754_nan -> y <> S754_nan ->
  (SFcompare x y = Some Lt <-> key_lt (sfkey x) (sfkey y)).
Proof.
  intros Hx Hy; unfold key_lt.
  destruct x as [[]|[]| |[] m e], y as [[]|[]| |[] m' e']; cbn; try congruence;
    try (split; intros H; (discriminate || reflexivity || lia));
    destruct (Z.compare_spec e e'); cbn;
    try (split; intros H'; (discriminate || reflexivity || lia));
    change (Pos.compare_cont Eq m m') with (Pos.compare m m');
    destruct (Pos.compare_spec m m'); cbn;
    split; intros H'; (discriminate || reflexivity || lia).
Qed.

Lemma total_on_b64 : total_on b64num not_nan.
Proof.
  unfold not_nan; constructor.
  - intros x y Hx Hy; cbn; unfold SFleb, SFltb.
    rewrite (sfcompare_opp x y).
    destruct (sfcompare_some x y Hx Hy) as ([| |] & ->); reflexivity.
  - intros x y Hx Hy; cbn; unfold SFltb; rewrite (sfcompare_opp x y).
    destruct (sfcompare_some x y Hx Hy) as ([| |] & ->); cbn; congruence.
  - intros x y z Hx Hy Hz; cbn; unfold SFleb.
    assert (G : forall a b, a <> S754_nan -> b <> S754_nan ->
              (match SFcompare a b with Some (Lt | Eq) => true | _ => false end = true
               <-> ~ key_lt (sfkey b) (sfkey a))).
    { intros a b Ha Hb; rewrite <- (sfcompare_lt b a Hb Ha), (sfcompare_opp a b).
      destruct (sfcompare_some a b Ha Hb) as ([| |] & ->); cbn;
        split; intros; try congruence; try discriminate. }
    rewrite !G by assumption; unfold key_lt; lia.
Qed.
