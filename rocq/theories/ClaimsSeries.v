(** * Claim C119: filters in series *)

From Coq Require Import Reals ZArith NArith List.
From Verif Require Import Arith History SpecStats SpecImpulse Impulse ImpulseRuns.
Import ListNotations.
Local Open Scope R_scope.
(** The outputs of a filter after every value, where [value l] is its output after the
    values [l]: what a second filter is fed with when both are in series. *)
Definition outputs {A B : Type} (value : list A -> B) (l : list A) : list B :=
  map (fun k => value (firstn (S k) l)) (seq 0 (length l)).
(** The output of the finite and infinite filter after given values, exact arithmetic. *)
Definition fir_of (eps : R) (c : list R) (l : list xreal) : xreal :=
  fir_value (exact eps) (fir_run (exact eps) (map Fin c) (pushes l)).
Definition iir_of (eps : R) (b a : list R) (scale : R) (l : list xreal) : xreal :=
  iir_value (exact eps) (iir_run (exact eps) (map Fin b) (map Fin a) (Fin scale) (pushes l)).
(** The coefficients of the product of two polynomials. *)
Definition product (c d : list R) : list R := map (convolution c d) (seq 0 (length c + length d - 1)).
(* @end-header *)
From Coq Require Import Lia Lra Arith.
From Verif Require Import ExactRuns HistoryLemmas StatsLemmas ImpulseProofs ClaimsImpulse.

(** ** Convolution of sequences *)

Definition conv (f g : nat -> R) (n : nat) : R := sumto (S n) (fun i => f i * g (n - i)%nat).
Definition at_ (l : list R) (i : nat) : R := nth i l 0.

Lemma sumto_S n f : sumto (S n) f = sumto n f + f n.
Proof. unfold sumto. rewrite seq_S, map_app, Rsum_app. cbn. ring. Qed.

Lemma sumto_first n f : sumto (S n) f = f 0%nat + sumto n (fun i => f (S i)).
Proof. unfold sumto. cbn [seq map]. rewrite <- seq_shift, map_map. reflexivity. Qed.

Lemma conv_0 f g : conv f g 0 = f 0%nat * g 0%nat.
Proof. unfold conv, sumto. cbn. ring. Qed.
Lemma conv_S f g n : conv f g (S n) = f 0%nat * g (S n) + conv (fun i => f (S i)) g n.
Proof. unfold conv. rewrite sumto_first. reflexivity. Qed.
Lemma conv_last f g n : conv f g (S n) = conv f (fun i => g (S i)) n + f (S n) * g 0%nat.
Proof.
  unfold conv. rewrite sumto_S. f_equal; [|rewrite Nat.sub_diag; reflexivity].
  apply sumto_ext. intros i H. replace (S n - i)%nat with (S (n - i)) by lia. reflexivity.
Qed.

Lemma conv_ext f f' g g' n : (forall i, (i <= n)%nat -> f i = f' i) -> (forall i, (i <= n)%nat -> g i = g' i) -> conv f g n = conv f' g' n.
Proof. intros H1 H2. apply sumto_ext. intros i Hi. rewrite H1, H2 by lia. reflexivity. Qed.

Lemma conv_comm n : forall f g, conv f g n = conv g f n.
Proof. induction n as [|n IH]; intros f g; [rewrite !conv_0; ring|]. rewrite conv_S, conv_last, (IH _ g). ring. Qed.

Lemma conv_lin n : forall a f g h, conv (fun i => a * f i + g i) h n = a * conv f h n + conv g h n.
Proof. induction n as [|n IH]; intros a f g h; [rewrite !conv_0; ring|]. rewrite !conv_S, IH. ring. Qed.

Lemma conv_assoc n : forall f g h, conv f (conv g h) n = conv (conv f g) h n.
Proof.
  induction n as [|n IH]; intros f g h; [rewrite !conv_0; ring|].
  rewrite (conv_S f), (conv_S (conv f g)), IH, conv_0, (conv_S g).
  rewrite (conv_ext (fun i => conv f g (S i)) (fun i => f 0%nat * g (S i) + conv (fun i => f (S i)) g i) h h); [|intros; apply conv_S|reflexivity].
  rewrite conv_lin. ring.
Qed.

(** Uniqueness *)
Lemma conv_unique f y z N : f 0%nat <> 0 -> (forall n, (n < N)%nat -> conv f y n = conv f z n) -> forall n, (n < N)%nat -> y n = z n.
Proof.
  intros F0 H. induction n as [n IH] using lt_wf_ind. intros Hn. specialize (H n Hn).
  destruct n as [|n].
  - rewrite !conv_0 in H. apply Rmult_eq_reg_l in H; assumption.
  - rewrite !conv_S in H. rewrite (conv_ext (fun i => f (S i)) (fun i => f (S i)) y z) in H; [|reflexivity|intros; apply IH; lia].
    apply (Rmult_eq_reg_l (f 0%nat)); [lra|exact F0].
Qed.

Lemma sumto_support n m f : (forall i, (n <= i < m)%nat -> f i = 0) -> (n <= m)%nat -> sumto m f = sumto n f.
Proof.
  intros H. induction m as [|m IH]; intros L.
  - replace n with 0%nat by lia. reflexivity.
  - destruct (Nat.eq_dec n (S m)) as [->|N]; [reflexivity|]. rewrite sumto_S, H, IH by (intros; try apply H; lia). ring.
Qed.

Lemma convolution_conv c x n : convolution c x n = conv (at_ c) (at_ x) n.
Proof.
  unfold convolution, conv.
  rewrite (sumto_ext (S n) _ (fun i => nth i c 0 * back x n i)).
  2:{ intros i Hi. unfold at_, back. replace (i <=? n)%nat with true by (symmetry; apply Nat.leb_le; lia). reflexivity. }
  destruct (Nat.le_ge_cases (length c) (S n)) as [L|L].
  - symmetry. apply sumto_support; [|exact L]. intros i Hi. rewrite nth_overflow by lia. ring.
  - apply sumto_support; [|exact L]. intros i Hi. unfold back. replace (i <=? n)%nat with false by (symmetry; apply Nat.leb_gt; lia). ring.
Qed.

Lemma at_product c d n : c <> [] -> d <> [] -> at_ (product c d) n = conv (at_ c) (at_ d) n.
Proof.
  intros Hc Hd. assert (Lc := len_pos c Hc). assert (Ld := len_pos d Hd).
  unfold at_ at 1, product. destruct (Nat.lt_ge_cases n (length c + length d - 1)) as [L|L].
  - rewrite (nth_indep _ 0 (convolution c d 0)) by (rewrite map_length, seq_length; exact L).
    rewrite map_nth, seq_nth by exact L. apply convolution_conv.
  - rewrite nth_overflow by (rewrite map_length, seq_length; exact L). symmetry. apply sumto_zero. intros i Hi.
    unfold at_. destruct (Nat.lt_ge_cases i (length c)) as [Li|Li].
    + rewrite (nth_overflow d) by lia. ring.
    + rewrite (nth_overflow c) by lia. ring.
Qed.

(** ** Outputs *)

Lemma pushes_fin (eps : R) (x : list R) : pushes (map Fin x) = rops eps (pushes x).
Proof. unfold pushes, rops. rewrite !map_map. reflexivity. Qed.

Lemma fir_of_fin eps c x : c <> [] -> x <> [] -> fir_of eps c (map Fin x) = Fin (convolution c x (length x - 1)).
Proof. intros Hc Hx. unfold fir_of. rewrite (pushes_fin eps). exact (fir_pushes eps c x Hc Hx). Qed.

Lemma convolution_prefix c x k : (k < length x)%nat -> convolution c (firstn (S k) x) k = convolution c x k.
Proof.
  intros H. rewrite !convolution_conv. apply conv_ext; [reflexivity|]. intros i Hi. unfold at_.
  rewrite <- (firstn_skipn (S k) x) at 2. rewrite app_nth1; [reflexivity|]. rewrite firstn_length. lia.
Qed.

Lemma nth_outputs {A B} (f : list A -> B) l d k : (k < length l)%nat -> nth k (outputs f l) d = f (firstn (S k) l).
Proof.
  intros H. unfold outputs. rewrite (nth_indep _ d (f (firstn 1 l))) by (rewrite map_length, seq_length; exact H).
  rewrite (map_nth (fun k => f (firstn (S k) l)) _ 0%nat), seq_nth by exact H. reflexivity.
Qed.
Lemma length_outputs {A B} (f : list A -> B) l : length (outputs f l) = length l.
Proof. unfold outputs. rewrite map_length, seq_length. reflexivity. Qed.

(** [y] is the sequence with [A * y = B * x]. *)
Definition resp (A B : nat -> R) (x y : list R) : Prop :=
  length y = length x /\ forall n, (n < length x)%nat -> conv A (at_ y) n = conv B (at_ x) n.

Lemma resp_comm A1 B1 A2 B2 x y z y' z' : A1 0%nat <> 0 -> A2 0%nat <> 0 ->
  resp A1 B1 x y -> resp A2 B2 y z -> resp A2 B2 x y' -> resp A1 B1 y' z' -> z = z'.
Proof.
  intros H1 H2 (L1 & E1) (L2 & E2) (L3 & E3) (L4 & E4).
  assert (G : forall n, (n < length x)%nat -> at_ z n = at_ z' n).
  { apply (conv_unique (conv A1 A2)); [rewrite conv_0; apply Rmult_integral_contrapositive_currified; assumption|].
    intros n Hn. rewrite <- !conv_assoc.
    rewrite (conv_ext A1 A1 (conv A2 (at_ z)) (conv B2 (at_ y))); [|reflexivity|intros; apply E2; lia].
    rewrite conv_assoc, (conv_ext _ (conv B2 A1) (at_ y) (at_ y)); [|intros; apply conv_comm|reflexivity].
    rewrite <- conv_assoc, (conv_ext B2 B2 _ (conv B1 (at_ x))); [|reflexivity|intros; apply E1; lia].
    rewrite (conv_assoc n A1), (conv_ext (conv A1 A2) (conv A2 A1) (at_ z') (at_ z')); [|intros; apply conv_comm|reflexivity].
    rewrite <- (conv_assoc n A2), (conv_ext A2 A2 _ (conv B1 (at_ y'))); [|reflexivity|intros; apply E4; lia].
    rewrite (conv_assoc n A2), (conv_ext _ (conv B1 A2) (at_ y') (at_ y')); [|intros; apply conv_comm|reflexivity].
    rewrite <- (conv_assoc n B1 A2), (conv_ext B1 B1 _ (conv B2 (at_ x))); [|reflexivity|intros; apply E3; lia].
    rewrite !conv_assoc. apply conv_ext; [intros; apply conv_comm|reflexivity]. }
  apply (nth_ext _ _ 0 0); [congruence|]. intros n Hn. apply G. congruence.
Qed.

Lemma resp_prefix A B x y k : resp A B x y -> resp A B (firstn k x) (firstn k y).
Proof.
  intros (L & E). split; [rewrite !firstn_length; congruence|]. intros n Hn. rewrite firstn_length in Hn.
  assert (G : forall (l : list R) i, (i <= n)%nat -> at_ (firstn k l) i = at_ l i).
  { intros l i Hi. unfold at_. destruct (Nat.lt_ge_cases i (length l)) as [Li|Li].
    - rewrite <- (firstn_skipn k l) at 2. rewrite app_nth1; [reflexivity|]. rewrite firstn_length. lia.
    - rewrite !nth_overflow; try reflexivity; [lia|rewrite firstn_length; lia]. }
  rewrite (conv_ext A A _ (at_ y)), (conv_ext B B _ (at_ x)); [apply E; lia|reflexivity|intros; apply G; lia|reflexivity|intros; apply G; lia].
Qed.

(** A filter given by such an equation. *)
Definition gives (f : list xreal -> xreal) (A B : nat -> R) : Prop :=
  forall x, x <> [] -> exists y, resp A B x y /\ f (map Fin x) = Fin (last y 0).

Lemma resp_unique A B x y z : A 0%nat <> 0 -> resp A B x y -> resp A B x z -> y = z.
Proof.
  intros H (L1 & E1) (L2 & E2). apply (nth_ext _ _ 0 0); [congruence|]. intros n Hn. rewrite L1 in Hn. revert n Hn.
  apply (conv_unique A (at_ y) (at_ z)); [exact H|]. intros n Hn. rewrite E1, E2 by exact Hn. reflexivity.
Qed.

Lemma gives_outputs f A B x y : A 0%nat <> 0 -> gives f A B -> x <> [] -> resp A B x y -> outputs f (map Fin x) = map Fin y.
Proof.
  intros HA G Hx R. pose proof R as (L & _). apply (nth_ext _ _ NonFin NonFin); [rewrite length_outputs, !map_length; congruence|].
  intros k Hk. rewrite length_outputs, map_length in Hk. rewrite nth_outputs by (rewrite map_length; exact Hk).
  rewrite firstn_map. destruct (G (firstn (S k) x)) as (y' & R' & ->); [destruct x; cbn in *; [lia|congruence]|].
  rewrite (resp_unique A B _ _ _ HA R' (resp_prefix A B x y (S k) R)).
  assert (Ly : length (firstn (S k) y) = S k) by (rewrite firstn_length; lia).
  rewrite last_nth, Ly. cbn [Nat.sub]. rewrite Nat.sub_0_r.
  rewrite (nth_indep _ NonFin (Fin 0)) by (rewrite map_length; lia). rewrite map_nth. f_equal.
  rewrite <- (firstn_skipn (S k) y) at 2. rewrite app_nth1 by lia. reflexivity.
Qed.

Lemma conv_one y n : conv (at_ [1]) y n = y n.
Proof.
  destruct n as [|n]; [rewrite conv_0; cbn; ring|]. rewrite conv_S. cbn [at_ nth]. 
  replace (conv _ y n) with 0; [ring|]. symmetry. apply sumto_zero. intros i _. unfold at_. destruct i; cbn; ring.
Qed.

Lemma fir_gives eps c : c <> [] -> gives (fir_of eps c) (at_ [1]) (at_ c).
Proof.
  intros Hc x Hx. exists (map (convolution c x) (seq 0 (length x))). assert (Lx := len_pos x Hx).
  assert (L : length (map (convolution c x) (seq 0 (length x))) = length x) by (rewrite map_length, seq_length; reflexivity).
  split; [split; [exact L|]|].
  - intros n Hn. rewrite conv_one, <- convolution_conv. unfold at_. rewrite (nth_indep _ 0 (convolution c x 0)) by (rewrite L; exact Hn).
    rewrite map_nth, seq_nth by exact Hn. reflexivity.
  - rewrite fir_of_fin by assumption. f_equal. rewrite last_nth, L, (nth_indep _ 0 (convolution c x 0)) by (rewrite L; lia).
    rewrite map_nth, seq_nth by lia. reflexivity.
Qed.

Lemma iir_gives eps b a scale : b <> [] -> a <> [] -> scale <> 0 -> gives (iir_of eps b a scale) (at_ (scale :: a)) (at_ b).
Proof.
  intros Hb Ha Hs x Hx. destruct (iir_pushes eps b a scale x Hb Ha Hs) as (y & (L & D) & V).
  exists y. split; [split; [exact L|]|].
  - intros n Hn. specialize (D n Hn). fold (convolution b x n) in D. rewrite convolution_conv in D.
    destruct n as [|n].
    + rewrite conv_0. cbn [at_ nth]. unfold at_ at 1. rewrite D.
      rewrite sumto_zero; [ring|]. intros i _. unfold back. cbn. ring.
    + rewrite conv_S. cbn [at_ nth].
      rewrite (sumto_ext _ _ (fun j => nth j a 0 * back y n j)) in D by (intros; rewrite back_S; reflexivity).
      fold (convolution a y n) in D. rewrite convolution_conv in D.
      change (scale * nth (S n) y 0 + conv (at_ a) (at_ y) n = conv (at_ b) (at_ x) (S n)). lra.
  - unfold iir_of. rewrite (pushes_fin eps). exact V.
Qed.

Lemma series_comm f g Af Bf Ag Bg x : Af 0%nat <> 0 -> Ag 0%nat <> 0 -> gives f Af Bf -> gives g Ag Bg -> x <> [] ->
  exists r, g (outputs f (map Fin x)) = Fin r /\ f (outputs g (map Fin x)) = Fin r.
Proof.
  intros H1 H2 G1 G2 Hx.
  destruct (G1 x Hx) as (y & R1 & _). destruct (G2 x Hx) as (y' & R3 & _).
  assert (N1 : y <> []) by (destruct R1 as [L _]; intros ->; destruct x; cbn in L; congruence).
  assert (N2 : y' <> []) by (destruct R3 as [L _]; intros ->; destruct x; cbn in L; congruence).
  rewrite (gives_outputs f Af Bf x y H1 G1 Hx R1), (gives_outputs g Ag Bg x y' H2 G2 Hx R3).
  destruct (G2 y N1) as (z & R2 & ->). destruct (G1 y' N2) as (z' & R4 & ->).
  rewrite (resp_comm Af Bf Ag Bg x y z y' z' H1 H2 R1 R2 R3 R4). eexists. split; reflexivity.
Qed.

(** @prop C119_finite: a finite filter with coefficients [d] that is fed with the outputs
    of one with coefficients [c] gives what a single finite filter gives whose
    coefficients are those of the product of the polynomials. *)
Lemma c119_finite : forall (eps : R) (c d x : list R),
  c <> [] -> d <> [] -> x <> [] ->
  exists r, fir_of eps d (outputs (fir_of eps c) (map Fin x)) = Fin r /\
    fir_of eps (product c d) (map Fin x) = Fin r.
Proof.
  intros eps c d x Hc Hd Hx. assert (Lc := len_pos c Hc). assert (Ld := len_pos d Hd). assert (Lx := len_pos x Hx).
  assert (O : at_ [1] 0%nat <> 0) by (cbn; lra).
  destruct (fir_gives eps c Hc x Hx) as (y & R1 & _). rewrite (gives_outputs _ _ _ x y O (fir_gives eps c Hc) Hx R1).
  assert (Ly : length y = length x) by apply R1.
  assert (Ny : y <> []) by (intros ->; cbn in Ly; lia).
  assert (Np : product c d <> []).
  { intros E. assert (Lp : length (product c d) = (length c + length d - 1)%nat) by (unfold product; rewrite map_length, seq_length; reflexivity).
    rewrite E in Lp. cbn in Lp. lia. }
  rewrite !fir_of_fin by assumption. eexists. split; [reflexivity|]. f_equal. rewrite Ly, !convolution_conv.
  rewrite (conv_ext _ (conv (at_ d) (at_ c)) (at_ x) (at_ x)); [|intros; rewrite at_product by assumption; apply conv_comm|reflexivity].
  rewrite <- conv_assoc. symmetry. apply conv_ext; [reflexivity|]. intros i Hi. destruct R1 as [_ E]. rewrite <- (E i) by lia. symmetry. apply conv_one.
Qed.

(** @ex C119_finite_ex: two averages of two values in series are 1/4, 1/2, 1/4. *)
Lemma c119_finite_ex : [1 / 2; 1 / 2] <> [] /\ product [1 / 2; 1 / 2] [1 / 2; 1 / 2] = [1 / 4; 1 / 2; 1 / 4].
Proof. split; [congruence|]. unfold product, convolution, sumto, back. cbn. repeat (apply (f_equal2 (@cons R)); [lra|]); reflexivity. Qed.

(** @prop C119_order: two impulse response filters in series may be swapped, whether
    finite or infinite: the results for all inputs are the same. *)
Lemma c119_order : forall (eps : R) (c d b a b' a' x : list R) (s s' : R),
  c <> [] -> d <> [] -> b <> [] -> a <> [] -> b' <> [] -> a' <> [] -> s <> 0 -> s' <> 0 -> x <> [] ->
  let f := fir_of eps c in
  let f' := fir_of eps d in
  let g := iir_of eps b a s in
  let g' := iir_of eps b' a' s' in
  let inputs := map Fin x in
  (exists r, f' (outputs f inputs) = Fin r /\ f (outputs f' inputs) = Fin r) /\
  (exists r, g (outputs f inputs) = Fin r /\ f (outputs g inputs) = Fin r) /\
  (exists r, g' (outputs g inputs) = Fin r /\ g (outputs g' inputs) = Fin r).
Proof.
  intros eps c d b a b' a' x s s' Hc Hd Hb Ha Hb' Ha' Hs Hs' Hx f f' g g' inputs.
  assert (O : at_ [1] 0%nat <> 0) by (cbn; lra).
  split; [|split]; eapply series_comm; try (apply fir_gives; assumption); try (apply iir_gives; assumption); assumption.
Qed.

(** @ex C119_order_ex: a difference and a smoother with 1/2: the step 0, 8, 8 gives 0, 8, 0
    and then 0, 4, 2, and in the other order 0, 4, 6 and then 0, 4, 2. *)
Lemma c119_order_ex :
  let x := [0; 8; 8] in
  [1; -1] <> [] /\ [1] <> [] /\ [-1] <> [] /\ 2 <> 0 /\ x <> [] /\
  map (convolution [1; -1] x) [0; 1; 2]%nat = [0; 8; 0] /\
  difference_equation [1] [-1] 2 [0; 8; 0] [0; 4; 2] /\
  difference_equation [1] [-1] 2 x [0; 4; 6] /\
  map (convolution [1; -1] [0; 4; 6]) [0; 1; 2]%nat = [0; 4; 2].
Proof.
  cbv zeta. repeat (split; [congruence || lra|]).
  split; [unfold convolution, sumto, back; cbn; repeat (apply (f_equal2 (@cons R)); [lra|]); reflexivity|].
  split; [split; [reflexivity|]; intros n Hn; cbn in Hn; destruct n as [|[|[|n]]]; try lia; unfold sumto, back; cbn; lra|].
  split; [split; [reflexivity|]; intros n Hn; cbn in Hn; destruct n as [|[|[|n]]]; try lia; unfold sumto, back; cbn; lra|].
  unfold convolution, sumto, back; cbn; repeat (apply (f_equal2 (@cons R)); [lra|]); reflexivity.
Qed.
