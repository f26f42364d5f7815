(** * Claim C91: decay filters and stable recursive filters forget their past *)

From Coq Require Import Reals ZArith NArith List Bool.
From Coq Require Import Floats.SpecFloat.
From Flocq Require Import Core.
From Verif Require Import Arith History SpecStats SpecDecay SpecImpulse Decay DecayRuns Impulse ImpulseRuns Binary64.
Import ListNotations.
Local Open Scope R_scope.
(* @end-header *)
From Coq Require Import Lia Lra Psatz.
From Flocq Require Import IEEE754.BinarySingleNaN.
From Verif Require Import HistoryLemmas ExactRuns DecayProofs ImpulseProofs Forgetting ClaimsAccuracy.

Lemma since_tail {A} (ops : list (op A)) t : since_clear (ops ++ pushes t) = since_clear ops ++ t.
Proof. unfold since_clear. rewrite since_clear_from_app. apply since_clear_from_pushes. Qed.

Lemma app_ne {A} (l t : list A) : t <> [] -> l ++ t <> [].
Proof. destruct l, t; cbn; congruence. Qed.

Lemma pushed_pushes {A} (l : list A) : pushed (pushes l) = length l.
Proof. unfold pushed, pushes. induction l as [|x l IH]; cbn; [reflexivity|]. f_equal. exact IH. Qed.

(** @prop C91_decay_mean: two decay filters with the same factor that have seen
    different histories (values since the last clear between lo and hi) and
    then receive the same values have means that differ by at most
    [(hi - lo) (1 - f)^n] after [n] of them. *)
Lemma c91_decay_mean : forall (eps f lo hi : R) (ops1 ops2 : list (op R)) (t : list R),
  0 < f <= 1 -> t <> [] ->
  Forall (fun x => lo <= x <= hi) (since_clear ops1) ->
  Forall (fun x => lo <= x <= hi) (since_clear ops2) ->
  Forall (fun x => lo <= x <= hi) t ->
  exists m1 m2,
    dmean_mean (exact eps) (run_dmean eps f (ops1 ++ pushes t)) = Fin m1 /\
    dmean_mean (exact eps) (run_dmean eps f (ops2 ++ pushes t)) = Fin m2 /\
    Rabs (m1 - m2) <= (hi - lo) * (1 - f) ^ length t.
Proof.
  intros eps f lo hi ops1 ops2 t Hf Ht H1 H2 H.
  exists (ewma f (since_clear ops1 ++ t)), (ewma f (since_clear ops2 ++ t)).
  rewrite !run_dmean_state, !since_tail, !dmean_mean_st by (auto using app_ne).
  split; [reflexivity|]. split; [reflexivity|]. apply ewma_forget; assumption.
Qed.

(** @ex C91_decay_mean_ex: factor 1/2, histories 8, clear, 4 and 0, 0; then
    2, 2, 2: the means differ by at most 4/8. *)
Lemma c91_decay_mean_ex :
  let ops1 := [Push 8; Clear; Push 4] in
  let ops2 := [Push 0; Push 0] in
  let t := [2; 2; 2] in
  0 < 1 / 2 <= 1 /\ t <> [] /\
  Forall (fun x => 0 <= x <= 4) (since_clear ops1) /\
  Forall (fun x => 0 <= x <= 4) (since_clear ops2) /\
  Forall (fun x => 0 <= x <= 4) t /\ (4 - 0) * (1 - 1 / 2) ^ length t = 1 / 2.
Proof.
  cbn -[pow]. split; [lra|]. split; [discriminate|].
  repeat split; try (repeat (apply Forall_cons; [lra|]); apply Forall_nil). cbn. lra.
Qed.

(** @prop C91_decay_variance: the same for variance(): for filters that have not
    been cleared, the difference after [n] common values is at most
    [(hi - lo)^2 (2 n + 1) q^n], where [1 - q] is the smaller of the two factors. *)
Lemma c91_decay_variance : forall (eps fm fv q lo hi : R) (l1 l2 t : list R),
  0 < fm <= 1 -> 0 < fv <= 1 -> q = Rmax (1 - fm) (1 - fv) -> t <> [] ->
  Forall (fun x => lo <= x <= hi) l1 -> Forall (fun x => lo <= x <= hi) l2 ->
  Forall (fun x => lo <= x <= hi) t ->
  exists v1 v2,
    dvar_variance (exact eps) (run_dvar eps fm fv (pushes (l1 ++ t))) = Fin v1 /\
    dvar_variance (exact eps) (run_dvar eps fm fv (pushes (l2 ++ t))) = Fin v2 /\
    Rabs (v1 - v2) <= (hi - lo) ^ 2 * (2 * INR (length t) + 1) * q ^ length t.
Proof.
  intros eps fm fv q lo hi l1 l2 t Hm Hv -> Ht H1 H2 H.
  exists (emoment 2 fm fv (l1 ++ t)), (emoment 2 fm fv (l2 ++ t)).
  assert (G : forall l, dvar_variance (exact eps) (run_dvar eps fm fv (pushes (l ++ t))) = Fin (emoment 2 fm fv (l ++ t))).
  { intros l. pose proof (app_ne l t Ht) as Hn. rewrite run_dvar_state by exact Hm.
    assert (Hl : (0 < length (l ++ t))%nat) by (destruct (l ++ t); [congruence|cbn; lia]).
    rewrite pushed_pushes, since_clear_pushes, dvar_variance_st by assumption.
    rewrite emoment_nrm by assumption. reflexivity. }
  split; [apply G|]. split; [apply G|].
  apply emoment_forget; try assumption; [apply Rmax_l|apply Rmax_r|apply Rmax_lub; lra].
Qed.

(** @ex C91_decay_variance_ex: factors 1/2 and 1/4. *)
Lemma c91_decay_variance_ex :
  0 < 1 / 2 <= 1 /\ 0 < 1 / 4 <= 1 /\ 3 / 4 = Rmax (1 - 1 / 2) (1 - 1 / 4) /\
  Forall (fun x => 0 <= x <= 4) [0; 4; 1] /\ Forall (fun x => 0 <= x <= 4) [3] /\
  Forall (fun x => 0 <= x <= 4) [2; 1; 2].
Proof.
  split; [lra|]. split; [lra|]. split; [unfold Rmax; destruct (Rle_dec _ _); lra|].
  repeat split; repeat (apply Forall_cons; [lra|]); apply Forall_nil.
Qed.

(** @prop C91_decay_binary64: the same in binary64 up to twice the error bound of
    C67, which does not depend on the length of the histories. *)
Lemma c91_decay_binary64 : forall (f : b64) (l1 l2 t : list b64) (M lo hi : R),
  b64_finite f -> bpow radix2 (-46) <= b64_real f <= 1 -> t <> [] -> M <= bpow radix2 1018 ->
  Forall (fun x => b64_finite x /\ Rabs (b64_real x) <= M) (l1 ++ t) ->
  Forall (fun x => b64_finite x /\ Rabs (b64_real x) <= M) (l2 ++ t) ->
  Forall (fun x => lo <= b64_real x <= hi) (l1 ++ t) ->
  Forall (fun x => lo <= b64_real x <= hi) (l2 ++ t) ->
  let mean l := dmean_mean b64num (run (dmean_push b64num) (dmean_clear b64num) (dmean_init b64num f) (pushes (l ++ t))) in
  let E := 209 * bpow radix2 (-53) * M / b64_real f +
    57 * bpow radix2 (-1075) * (1 + M) / (b64_real f * b64_real f) in
  b64_finite (mean l1) /\ b64_finite (mean l2) /\
  Rabs (b64_real (mean l1) - b64_real (mean l2)) <= (hi - lo) * (1 - b64_real f) ^ length t + 2 * E.
Proof.
  intros f l1 l2 t M lo hi Ff Hf Ht HM F1 F2 R1 R2 mean E.
  destruct (c67_binary64 f (l1 ++ t) M Ff Hf (app_ne l1 t Ht) HM F1) as (G1 & A1).
  destruct (c67_binary64 f (l2 ++ t) M Ff Hf (app_ne l2 t Ht) HM F2) as (G2 & A2).
  fold (mean l1) in G1, A1. fold (mean l2) in G2, A2. fold E in A1, A2.
  split; [exact G1|]. split; [exact G2|]. rewrite !map_app in A1, A2.
  assert (W : forall l, Forall (fun x => lo <= b64_real x <= hi) l -> within lo hi (map b64_real l)).
  { intros l H. apply Forall_map. exact H. }
  apply Forall_app in R1, R2. destruct R1 as [R1 Rt], R2 as [R2 _].
  assert (Ht' : map b64_real t <> []) by (destruct t; [congruence|discriminate]).
  pose proof (ewma_forget (b64_real f) lo hi (map b64_real l1) (map b64_real l2) (map b64_real t)
    ltac:(pose proof (bp (-46)); lra) Ht' (W _ R1) (W _ R2) (W _ Rt)) as B.
  rewrite map_length in B. set (r1 := b64_real (mean l1)) in *. set (r2 := b64_real (mean l2)) in *.
  apply Rabs_le_inv in A1. apply Rabs_le_inv in A2. apply Rabs_le_inv in B. apply Rabs_le. lra.
Qed.

(** @ex C91_decay_binary64_ex: factor 1/8, histories 1.5 and 2.5, 4, then 4, 0.5. *)
Lemma c91_decay_binary64_ex :
  let d k := @ndiv b64num (b64_of_Z k) (b64_of_Z 8) in
  let l1 := [d 12%Z] in
  let l2 := [d 20%Z; d 32%Z] in
  let t := [d 32%Z; d 4%Z] in
  b64_finite (d 1%Z) /\ bpow radix2 (-46) <= b64_real (d 1%Z) <= 1 /\ t <> [] /\ 4 <= bpow radix2 1018 /\
  Forall (fun x => b64_finite x /\ Rabs (b64_real x) <= 4) (l1 ++ t) /\
  Forall (fun x => b64_finite x /\ Rabs (b64_real x) <= 4) (l2 ++ t) /\
  Forall (fun x => 1 / 2 <= b64_real x <= 4) (l1 ++ t) /\
  Forall (fun x => 1 / 2 <= b64_real x <= 4) (l2 ++ t).
Proof.
  cbn zeta. split; [split; vm_compute; reflexivity|]. split.
  { replace (b64_real (@ndiv b64num (b64_of_Z 1) (b64_of_Z 8))) with (bpow radix2 (-3)).
    - split; [apply bp_le; lia|cbn; lra].
    - vm_compute ndiv. unfold b64_real, SF2R, F2R. cbn. lra. }
  split; [discriminate|]. split; [apply (bp_le 2 1018); lia|].
  match goal with |- Forall _ ?x /\ _ => let y := eval vm_compute in x in change x with y end.
  match goal with |- _ /\ Forall _ ?x /\ _ => let y := eval vm_compute in x in change x with y end.
  split; [magnitudes|]. split; [magnitudes|].
  split; repeat (apply Forall_cons; [unfold b64_real, SF2R, F2R; cbn; lra|]); apply Forall_nil.
Qed.

(** @prop C91_iir: two recursive filters whose feedback coefficients are smaller
    than [|scale|] in total, with different histories of values of magnitude at
    most [M], then the same [n] values: each further [length a] of them reduce
    the difference of the outputs by the factor [rho = sum |a| / |scale|]. *)
Lemma c91_iir : forall (eps : R) (b a : list R) (scale : R) (ops1 ops2 : list (op R)) (t : list R) (M : R) (i : nat),
  b <> [] -> a <> [] -> abs_sum a < Rabs scale -> t <> [] ->
  Forall (fun x => Rabs x <= M) (since_clear ops1) -> Forall (fun x => Rabs x <= M) (since_clear ops2) ->
  Forall (fun x => Rabs x <= M) t ->
  (length b + i * length a <= length t)%nat ->
  exists v1 v2,
    iir_value (exact eps) (run_iir eps b a scale (ops1 ++ pushes t)) = Fin v1 /\
    iir_value (exact eps) (run_iir eps b a scale (ops2 ++ pushes t)) = Fin v2 /\
    Rabs (v1 - v2) <= (abs_sum a / Rabs scale) ^ S i * (abs_sum b * (2 * M) / (Rabs scale - abs_sum a)).
Proof.
  intros eps b a scale ops1 ops2 t M i Nb Na HS Ht H1 H2 H Hi.
  assert (S0 : scale <> 0).
  { intros ->. rewrite Rabs_R0 in HS. pose proof (abs_sum_nonneg a). lra. }
  destruct (iir_value_exact eps b a scale (ops1 ++ pushes t) Nb Na S0) as (y1 & D1 & E1).
  destruct (iir_value_exact eps b a scale (ops2 ++ pushes t) Nb Na S0) as (y2 & D2 & E2).
  rewrite since_tail in D1, D2. exists (last y1 0), (last y2 0). split; [exact E1|]. split; [exact E2|].
  assert (HM : 0 <= M) by (destruct H as [|x t Hx _]; [congruence|pose proof (Rabs_pos x); lra]).
  assert (IN : forall l, Forall (fun x => Rabs x <= M) l -> forall v, In v (l ++ t) -> Rabs v <= M).
  { intros l Hl. apply Forall_forall. apply Forall_app. split; assumption. }
  apply (iir_forget b a scale HS (since_clear ops1) (since_clear ops2) t); auto; apply IN; assumption.
Qed.

(** @ex C91_iir_ex: y_n = (x_n + y_(n-1)) / 2, one clear. *)
Lemma c91_iir_ex :
  let ops1 := [Push 1; Push (-1)] in
  let ops2 := [Push 3; Clear; Push 1; Push 1; Push 1] in
  let t := [1; 0; 1; 0] in
  [1] <> [] /\ [-1] <> [] /\ abs_sum [-1] < Rabs 2 /\ t <> [] /\
  Forall (fun x => Rabs x <= 1) (since_clear ops1) /\ Forall (fun x => Rabs x <= 1) (since_clear ops2) /\
  Forall (fun x => Rabs x <= 1) t /\ (1 + 3 * 1 <= length t)%nat /\
  (abs_sum [-1] / Rabs 2) ^ 4 * (abs_sum [1] * (2 * 1) / (Rabs 2 - abs_sum [-1])) = 1 / 8.
Proof.
  assert (A : Rabs (-1) = 1) by (unfold Rabs; destruct (Rcase_abs (-1)); lra).
  assert (B : Rabs 2 = 2) by (apply Rabs_pos_eq; lra).
  unfold abs_sum. cbn [map Rsum since_clear since_clear_from app length]. rewrite A, B, Rabs_R1.
  split; [discriminate|]. split; [discriminate|]. split; [lra|]. split; [discriminate|].
  split; [|split; [|split; [|split; [cbn; lia|lra]]]];
    repeat (apply Forall_cons; [rewrite ?A, ?Rabs_R1, ?Rabs_R0; lra|]); apply Forall_nil.
Qed.

(** @prop C91_iir_settles: such a filter that receives the same value [c] over and
    over settles at [c * sum b / (scale + sum a)], at the same pace and whatever
    it has seen before. *)
Lemma c91_iir_settles : forall (eps : R) (b a : list R) (scale : R) (ops : list (op R)) (c : R) (m : nat) (M : R) (i : nat),
  b <> [] -> a <> [] -> abs_sum a < Rabs scale ->
  Forall (fun x => Rabs x <= M) (since_clear ops) -> Rabs c <= M ->
  (length b + i * length a <= m)%nat ->
  scale + Rsum a <> 0 /\
  exists v,
    iir_value (exact eps) (run_iir eps b a scale (ops ++ pushes (repeat c m))) = Fin v /\
    Rabs (v - c * Rsum b / (scale + Rsum a)) <=
      (abs_sum a / Rabs scale) ^ S i * (2 * (abs_sum b * M / (Rabs scale - abs_sum a))).
Proof.
  intros eps b a scale ops c m M i Nb Na HS H Hc Hi.
  assert (S0 : scale <> 0).
  { intros ->. rewrite Rabs_R0 in HS. pose proof (abs_sum_nonneg a). lra. }
  split; [apply gain_defined; exact HS|].
  destruct (iir_value_exact eps b a scale (ops ++ pushes (repeat c m)) Nb Na S0) as (y & D & E).
  rewrite since_tail in D. exists (last y 0). split; [exact E|].
  assert (Lb : (0 < length b)%nat) by (destruct b; [congruence|cbn; lia]).
  apply (output_settles b a scale HS (since_clear ops) c m); auto.
  - pose proof (Rabs_pos c). lra.
  - lia.
  - apply Forall_forall. apply Forall_app. split; [exact H|]. apply Forall_forall. intros v Hv.
    apply repeat_spec in Hv. subst. exact Hc.
Qed.

(** @ex C91_iir_settles_ex: y_n = (x_n + y_(n-1)) / 2 settles at the value itself;
    after 11 of them it is within 1/256 times 8. *)
Lemma c91_iir_settles_ex :
  [1] <> [] /\ [-1] <> [] /\ abs_sum [-1] < Rabs 2 /\
  Forall (fun x => Rabs x <= 8) (since_clear [Push 8; Push (-8)]) /\ Rabs 3 <= 8 /\
  (1 + 10 * 1 <= 11)%nat /\ 3 * Rsum [1] / (2 + Rsum [-1]) = 3.
Proof.
  assert (A : Rabs (-1) = 1) by (unfold Rabs; destruct (Rcase_abs (-1)); lra).
  assert (B : Rabs 2 = 2) by (apply Rabs_pos_eq; lra).
  assert (C : Rabs 8 = 8) by (apply Rabs_pos_eq; lra).
  assert (D : Rabs (-8) = 8) by (unfold Rabs; destruct (Rcase_abs (-8)); lra).
  assert (E : Rabs 3 = 3) by (apply Rabs_pos_eq; lra).
  unfold abs_sum. cbn [map Rsum since_clear since_clear_from app length]. rewrite A, B, E.
  split; [discriminate|]. split; [discriminate|]. split; [lra|].
  split; [repeat (apply Forall_cons; [lra|]); apply Forall_nil|]. split; [lra|]. split; [cbn; lia|]. lra.
Qed.

(** @prop C91_fir_settles: a finite filter that has received the same value as many
    times as it has coefficients returns that value times the sum of the
    coefficients, whatever it has seen before. *)
Lemma c91_fir_settles : forall (eps : R) (c : list R) (ops : list (op R)) (x : R) (m : nat),
  c <> [] -> (length c <= m)%nat ->
  fir_value (exact eps) (run_fir eps c (ops ++ pushes (repeat x m))) = Fin (x * Rsum c).
Proof.
  intros eps c ops x m Nc Hm.
  assert (Lc : (0 < length c)%nat) by (destruct c; [congruence|cbn; lia]).
  rewrite fir_value_exact, since_tail; [|exact Nc|].
  - rewrite app_length, repeat_length. rewrite convolution_settled by lia. reflexivity.
  - rewrite since_tail. apply app_ne. destruct m; [lia|discriminate].
Qed.

(** @ex C91_fir_settles_ex: a moving average of four values. *)
Lemma c91_fir_settles_ex :
  let c := [1/4; 1/4; 1/4; 1/4] in
  c <> [] /\ (length c <= 4)%nat /\ 7 * Rsum c = 7.
Proof. cbn. split; [discriminate|]. split; [lia|]. lra. Qed.

(** @prop C91_iir_binary64: the same in binary64 up to twice the error bound [E] of
    C69, under its conditions. *)
Lemma c91_iir_binary64 : forall (b a : list b64) (scale : b64) (ops1 ops2 : list (op b64)) (t : list b64) (M : R) (i : nat),
  let bv := map b64_real b in
  let av := map b64_real a in
  let s := Rabs (b64_real scale) in
  let u := bpow radix2 (-53) in
  let eta := bpow radix2 (-1075) in
  b <> [] -> a <> [] -> t <> [] ->
  Forall b64_finite b -> Forall b64_finite a -> b64_finite scale ->
  Forall (fun x => b64_finite x /\ Rabs (b64_real x) <= M) (since_clear ops1) ->
  Forall (fun x => b64_finite x /\ Rabs (b64_real x) <= M) (since_clear ops2) ->
  Forall (fun x => b64_finite x /\ Rabs (b64_real x) <= M) t ->
  abs_sum av < s ->
  let r := INR (length b + length a) in
  let rho := abs_sum av / s in
  let Y := abs_sum bv * M / (s - abs_sum av) in
  let E := 2 * ((8 * r + 19) * u * Y + (24 * r + 2) * eta / s + eta) / (1 - rho) in
  2 * (8 * r + 19) * u <= 1 - rho ->
  4 * (s * (Y + E)) + (12 * r + 2) * eta <= bpow radix2 1023 ->
  4 * (Y + E) + (12 * r + 2) * eta / s <= bpow radix2 1023 ->
  (length b + i * length a <= length t)%nat ->
  let value ops := iir_value b64num (iir_run b64num b a scale (ops ++ pushes t)) in
  b64_finite (value ops1) /\ b64_finite (value ops2) /\
  Rabs (b64_real (value ops1) - b64_real (value ops2)) <= rho ^ S i * (2 * Y) + 2 * E.
Proof.
  intros b a scale ops1 ops2 t M i bv av s u eta Nb Na Nt Fb Fa Fs F1 F2 Ft HS r rho Y E C1 C2 C3 Hi value.
  assert (Nbv : bv <> []) by (unfold bv; destruct b; [congruence|discriminate]).
  assert (Nav : av <> []) by (unfold av; destruct a; [congruence|discriminate]).
  assert (S0 : b64_real scale <> 0).
  { intros E0. unfold s in HS. rewrite E0, Rabs_R0 in HS. pose proof (abs_sum_nonneg av). lra. }
  assert (G : forall ops, Forall (fun x => b64_finite x /\ Rabs (b64_real x) <= M) (since_clear ops) ->
    exists y, difference_equation bv av (b64_real scale) (map b64_real (since_clear ops) ++ map b64_real t) y /\
      b64_finite (value ops) /\ Rabs (b64_real (value ops) - last y 0) <= E).
  { intros ops Fo.
    destruct (iir_value_exact 0 bv av (b64_real scale) (pushes (map b64_real (since_clear ops ++ t))) Nbv Nav S0)
      as (y & D & _).
    rewrite since_clear_pushes in D. exists y. split; [rewrite <- map_app; exact D|].
    apply (c69_binary64 b a scale (ops ++ pushes t) M y); try assumption; rewrite since_tail; try assumption.
    - apply app_ne; exact Nt.
    - apply Forall_app. split; assumption. }
  destruct (G ops1 F1) as (y1 & D1 & G1 & A1). destruct (G ops2 F2) as (y2 & D2 & G2 & A2).
  split; [exact G1|]. split; [exact G2|].
  assert (HM : 0 <= M) by (destruct Ft as [|x t' [_ Hx] _]; [congruence|pose proof (Rabs_pos (b64_real x)); lra]).
  assert (IN : forall l, Forall (fun x => b64_finite x /\ Rabs (b64_real x) <= M) l ->
    forall v, In v (map b64_real l ++ map b64_real t) -> Rabs v <= M).
  { intros l Hl v Hv. rewrite <- map_app in Hv. apply in_map_iff in Hv. destruct Hv as (x & <- & Hx).
    assert (Fl : Forall (fun x => b64_finite x /\ Rabs (b64_real x) <= M) (l ++ t)) by (apply Forall_app; split; assumption).
    rewrite Forall_forall in Fl. apply Fl. exact Hx. }
  assert (Nt' : map b64_real t <> []) by (destruct t; [congruence|discriminate]).
  pose proof (iir_forget bv av (b64_real scale) HS _ _ _ y1 y2 M i HM Nt' (IN _ F1) (IN _ F2) D1 D2) as B.
  assert (Lb : length bv = length b) by apply map_length.
  assert (La : length av = length a) by apply map_length.
  assert (Lt : length (map b64_real t) = length t) by apply map_length.
  rewrite Lb, La, Lt in B. specialize (B Hi). fold s rho in B.
  replace (abs_sum bv * (2 * M) / (s - abs_sum av)) with (2 * Y) in B by (unfold Y, Rdiv; ring).
  apply Rabs_le_inv in A1. apply Rabs_le_inv in A2. apply Rabs_le_inv in B. apply Rabs_le. lra.
Qed.

(** @ex C91_iir_binary64_ex: the exponential smoother with feedback one half; four
    common values after different histories. *)
Lemma c91_iir_binary64_ex :
  let z := b64_of_Z in
  let half := @ndiv b64num (z 1%Z) (z 2%Z) in
  let ops1 := [Push (z 99%Z); Clear; Push (z 1%Z); Push (z (-10)%Z); Push (z 3%Z)] in
  let ops2 := [Push (z 10%Z)] in
  let t := [z 1%Z; z 2%Z; z 3%Z; z 4%Z] in
  let u := bpow radix2 (-53) in
  let eta := bpow radix2 (-1075) in
  b64_finite half /\ b64_finite (z 1%Z) /\
  Forall (fun x => b64_finite x /\ Rabs (b64_real x) <= 10) (since_clear ops1) /\
  Forall (fun x => b64_finite x /\ Rabs (b64_real x) <= 10) (since_clear ops2) /\
  Forall (fun x => b64_finite x /\ Rabs (b64_real x) <= 10) t /\
  abs_sum (map b64_real [half]) = / 2 /\ abs_sum (map b64_real [z 1%Z]) = 1 /\ Rabs (b64_real (z 1%Z)) = 1 /\
  (length [z 1%Z] + 3 * length [half] <= length t)%nat /\
  let r := INR 2 in
  let Y := 1 * 10 / (1 - / 2) in
  let E := 2 * ((8 * r + 19) * u * Y + (24 * r + 2) * eta / 1 + eta) / (1 - / 2 / 1) in
  2 * (8 * r + 19) * u <= 1 - / 2 / 1 /\
  4 * (1 * (Y + E)) + (12 * r + 2) * eta <= bpow radix2 1023 /\
  4 * (Y + E) + (12 * r + 2) * eta / 1 <= bpow radix2 1023 /\
  (/ 2 / 1) ^ 4 * (2 * Y) + 2 * E < 3.
Proof.
  cbn zeta.
  assert (H1 : b64_real (b64_of_Z 1) = 1).
  { unfold b64_real. match goal with |- SF2R _ ?x = _ => let y := eval vm_compute in x in change x with y end.
    unfold SF2R, F2R. cbn. lra. }
  assert (H2 : b64_real (@ndiv b64num (b64_of_Z 1) (b64_of_Z 2)) = / 2).
  { unfold b64_real. match goal with |- SF2R _ ?x = _ => let y := eval vm_compute in x in change x with y end.
    unfold SF2R, F2R. cbn. lra. }
  split; [split; vm_compute; reflexivity|]. split; [split; vm_compute; reflexivity|].
  do 3 (split; [match goal with |- Forall _ ?x => let y := eval vm_compute in x in change x with y end; magnitudes|]).
  cbn [map]. rewrite H1, H2. unfold abs_sum. cbn [map Rsum fold_right]. rewrite !Rabs_R1, (Rabs_right (/ 2)) by lra.
  split; [cbn; ring|]. split; [cbn; ring|]. split; [reflexivity|]. split; [cbn; lia|].
  assert (T : 0 < bpow radix2 (-1075) <= bpow radix2 (-80)) by (split; [apply bp|apply bp_le; lia]).
  assert (B : bpow radix2 10 <= bpow radix2 1023) by (apply bp_le; lia).
  change (bpow radix2 (-80)) with (/ IZR (Z.pow_pos 2 80)) in T. change (bpow radix2 10) with 1024 in B.
  revert T B. generalize (bpow radix2 (-1075)) (bpow radix2 1023). intros t B' T B. cbn in T |- *. lra.
Qed.
