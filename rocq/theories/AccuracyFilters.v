(** * Error bounds for decay, finite and infinite impulse response filters *)

From Coq Require Import Reals ZArith NArith Bool List Lra Lia Psatz.
From Flocq Require Import Core.
From Verif Require Import Arith History HistoryLemmas SpecStats StatsLemmas Decay SpecDecay DecayProofs
  Impulse SpecImpulse ImpulseRuns ImpulseProofs Approx AccuracyProofs.
Import ListNotations.
Local Open Scope R_scope.

Section Filters.
Context {F : num} {val : F -> R -> Prop} {B e t : R} {K : N}.
Hypothesis AP : approx F val B e t K.

Local Notation He := (ap_e _ _ _ _ _ _ AP).
Local Notation Ht := (ap_t _ _ _ _ _ _ AP).

Lemma scale_le a x : 0 <= x -> a <= 1 -> a * x <= x.
Proof. intros. rewrite <- (Rmult_1_l x) at 2. apply Rmult_le_compat_r; assumption. Qed.

(** Error of s + f (x - s). *)
Lemma blend_err s f x sv fv xv D Y :
  val s sv -> val f fv -> val x xv -> 0 <= fv <= 1 -> 0 <= D ->
  Rabs (xv - sv) <= D -> Rabs (sv + fv * (xv - sv)) <= Y ->
  Y + 3 * D + 3 * t <= B ->
  exists r, val (nadd s (nmul f (nsub x s))) r /\
    Rabs (r - (sv + fv * (xv - sv))) <= 2 * (3 * (e * (fv * D)) + 3 * t) + e * Y + t.
Proof.
  intros Vs Vf Vx Hf D0 HD HY HB. pose proof He as [E0 E1]. pose proof Ht as T0.
  assert (Y0 : 0 <= Y) by (eapply Rle_trans; [apply Rabs_pos|exact HY]).
  destruct (ap_sub _ _ _ _ _ _ AP _ _ _ _ Vx Vs) as (d & Vd & Nd); [lra|]. unfold near in Nd.
  assert (eD : 0 <= e * D <= D) by (split; [apply Rmult_le_pos; lra|apply scale_le; lra]).
  assert (Ed : Rabs (d - (xv - sv)) <= e * D + t).
  { eapply Rle_trans; [exact Nd|]. apply Rplus_le_compat_r, Rmult_le_compat_l; assumption. }
  assert (Bd : Rabs d <= D + e * D + t).
  { replace d with ((xv - sv) + (d - (xv - sv))) by ring. eapply Rle_trans; [apply Rabs_triang|]. lra. }
  assert (Bfd : Rabs (fv * d) <= fv * (D + e * D + t)).
  { rewrite Rabs_mult, (Rabs_pos_eq fv) by lra. apply Rmult_le_compat_l; lra. }
  assert (X : fv * (D + e * D + t) <= D + e * D + t) by (apply scale_le; lra).
  destruct (ap_mul _ _ _ _ _ _ AP _ _ _ _ Vf Vd) as (p & Vp & Np); [lra|]. unfold near in Np.
  set (h := e * (fv * D)).
  assert (fD : 0 <= fv * D <= D) by (split; [apply Rmult_le_pos; lra|apply scale_le; lra]).
  assert (h0 : 0 <= h <= D) by (unfold h; split; [apply Rmult_le_pos; lra|]; pose proof (scale_le e (fv * D)); lra).
  assert (eh : e * h <= h) by (apply scale_le; lra).
  assert (ft : 0 <= fv * t <= t) by (split; [apply Rmult_le_pos; lra|apply scale_le; lra]).
  assert (eft : e * (fv * t) <= t) by (pose proof (scale_le e (fv * t)); lra).
  assert (Ep : Rabs (p - fv * (xv - sv)) <= 3 * h + 3 * t).
  { replace (p - fv * (xv - sv)) with ((p - fv * d) + fv * (d - (xv - sv))) by ring.
    eapply Rle_trans; [apply Rabs_triang|]. rewrite (Rabs_mult fv), (Rabs_pos_eq fv) by lra.
    assert (fv * Rabs (d - (xv - sv)) <= fv * (e * D + t)) by (apply Rmult_le_compat_l; lra).
    assert (e * Rabs (fv * d) <= e * (fv * (D + e * D + t))) by (apply Rmult_le_compat_l; lra).
    replace (fv * (e * D + t)) with (h + fv * t) in * by (unfold h; ring).
    replace (e * (fv * (D + e * D + t))) with (h + e * h + e * (fv * t)) in * by (unfold h; ring). lra. }
  assert (Yp : Rabs (sv + p) <= Y + (3 * h + 3 * t)).
  { replace (sv + p) with ((sv + fv * (xv - sv)) + (p - fv * (xv - sv))) by ring.
    eapply Rle_trans; [apply Rabs_triang|]. lra. }
  destruct (ap_add _ _ _ _ _ _ AP _ _ _ _ Vs Vp) as (r & Vr & Nr); [lra|]. unfold near in Nr.
  exists r. split; [exact Vr|].
  replace (r - (sv + fv * (xv - sv))) with ((r - (sv + p)) + (p - fv * (xv - sv))) by ring.
  eapply Rle_trans; [apply Rabs_triang|].
  assert (e * Rabs (sv + p) <= e * (Y + (3 * h + 3 * t))) by (apply Rmult_le_compat_l; lra).
  assert (e * (3 * h + 3 * t) <= 3 * h + 3 * t) by (apply scale_le; lra).
  rewrite Rmult_plus_distr_l in *. lra.
Qed.

(** ** Decay *)

Lemma decayed_bound f lv M : 0 < f <= 1 -> Forall (fun x => Rabs x <= M) lv ->
  Rabs (f * esum (1 - f) lv) <= M * nrm f (length lv).
Proof.
  intros Hf HM.
  assert (HM' : Forall (fun x => - M <= x <= M) lv).
  { eapply Forall_impl; [|exact HM]. intros a Ha. cbv beta in Ha. apply Rabs_le_inv. exact Ha. }
  pose proof (esum_bounds (1 - f) (- M) M lv ltac:(lra) HM') as [H1 H2].
  pose proof (esum_ones (1 - f) lv) as E. replace (1 - (1 - f)) with f in E by ring.
  unfold nrm. rewrite <- E. apply Rabs_le. split; nra.
Qed.

Lemma nrm_le1 f n : 0 < f <= 1 -> nrm f n <= 1.
Proof. intros Hf. unfold nrm. pose proof (pow_le (1 - f) n ltac:(lra)). lra. Qed.

Lemma nrm_ge f n : 0 < f <= 1 -> f <= nrm f (S n).
Proof. intros Hf. rewrite nrm_S. pose proof (nrm_nonneg f n Hf). nra. Qed.

Definition dbound (f M n : R) : R := 26 * (e * M) / f * n + 14 * t / f.

Lemma decay_sum_acc f fv M l lv : val f fv -> 0 < fv <= 1 -> 0 <= M ->
  Forall2 val l lv -> Forall (fun x => Rabs x <= M) lv ->
  14 * e <= fv -> 56 * t <= fv * fv -> 16 * (M + 1) <= B ->
  exists r, val (fold_left (fun s x => nadd s (nmul f (nsub x s))) l n0) r /\
    Rabs (r - fv * esum (1 - fv) lv) <= dbound fv M (nrm fv (length lv)).
Proof.
  intros Vf Hf HM V HX He14 Ht56 HB. pose proof He as [E0 E1]. pose proof Ht as T0.
  revert lv V HX. induction l as [|x l IH] using rev_ind; intros lv V HX.
  - inversion V; subst. exists 0. split; [apply (ap_0 _ _ _ _ _ _ AP)|]. cbn [esum length fold_left].
    rewrite Rmult_0_r, Rminus_0_r, Rabs_R0. unfold dbound. rewrite nrm_0, Rmult_0_r, Rplus_0_l.
    apply Rmult_le_pos; [lra|]. left. apply Rinv_0_lt_compat. lra.
  - apply Forall2_app_inv_l in V. destruct V as (lv' & xv' & V & Vx & ->).
    inversion Vx as [|? xv ? ? Vxv Vnil]; subst. inversion Vnil; subst. clear Vx Vnil.
    apply Forall_app in HX. destruct HX as [HX Hx]. inversion Hx as [|? ? Hxv _]; subst.
    destruct (IH lv' V HX) as (s & Vs & Es). clear IH.
    rewrite fold_left_app. cbn [fold_left].
    rewrite length_snoc, esum_snoc.
    pose proof (decayed_bound fv lv' M Hf HX) as BS.
    assert (BS' : Rabs (fv * esum (1 - fv) (lv' ++ [xv])) <= M * nrm fv (S (length lv'))).
    { rewrite <- (length_snoc lv' xv). apply decayed_bound; [exact Hf|]. apply Forall_app. split; assumption. }
    rewrite esum_snoc in BS'.
    set (S := fv * esum (1 - fv) lv') in *. set (nr := nrm fv (length lv')) in *.
    assert (ES : fv * ((1 - fv) * esum (1 - fv) lv' + xv) = S + fv * (xv - S)) by (unfold S; ring).
    rewrite ES in *. clear ES.
    assert (N0 : 0 <= nr) by (apply nrm_nonneg; exact Hf).
    assert (N1 : nr <= 1) by (apply nrm_le1; exact Hf).
    assert (EN : nrm fv (Datatypes.S (length lv')) = nr + fv * (1 - nr)) by (unfold nr; apply nrm_S).
    rewrite EN in *. clear EN.
    set (E := dbound fv M nr) in *.
    set (a := 26 * (e * M) / fv). set (b := 14 * t / fv).
    assert (af : a * fv = 26 * (e * M)) by (unfold a; field; lra).
    assert (bf : b * fv = 14 * t) by (unfold b; field; lra).
    assert (eM : 0 <= e * M) by (apply Rmult_le_pos; lra).
    assert (a0 : 0 <= a) by (unfold a; apply Rmult_le_pos; [lra|left; apply Rinv_0_lt_compat; lra]).
    assert (b0 : 0 <= b) by (unfold b; apply Rmult_le_pos; [lra|left; apply Rinv_0_lt_compat; lra]).
    assert (aM : a <= 2 * M).
    { apply Rmult_le_reg_r with fv; [lra|]. rewrite af.
      assert (14 * (e * M) <= fv * M) by (rewrite <- Rmult_assoc; apply Rmult_le_compat_r; lra). lra. }
    assert (b1 : b <= 1 / 4).
    { apply Rmult_le_reg_r with fv; [lra|]. rewrite bf. nra. }
    assert (EE : E = a * nr + b) by reflexivity.
    assert (anr : 0 <= a * nr <= a) by (split; nra).
    assert (t1 : t <= / 56) by nra.
    assert (DB : Rabs (xv - s) <= 2 * M + E).
    { replace (xv - s) with (xv - S + - (s - S)) by ring.
      eapply Rle_trans; [apply Rabs_triang|]. rewrite Rabs_Ropp.
      assert (Rabs (xv - S) <= Rabs xv + Rabs S).
      { unfold Rminus. rewrite <- (Rabs_Ropp S). apply Rabs_triang. }
      assert (M * nr <= M) by nra. lra. }
    assert (YB : Rabs (s + fv * (xv - s)) <= M * (nr + fv * (1 - nr)) + E).
    { replace (s + fv * (xv - s)) with ((S + fv * (xv - S)) + (1 - fv) * (s - S)) by ring.
      eapply Rle_trans; [apply Rabs_triang|]. apply Rplus_le_compat; [exact BS'|].
      rewrite Rabs_mult, (Rabs_pos_eq (1 - fv)) by lra.
      pose proof (Rabs_pos (s - S)). nra. }
    assert (NN : nr + fv * (1 - nr) <= 1) by nra.
    assert (MN : M * (nr + fv * (1 - nr)) <= M) by nra.
    destruct (blend_err _ _ _ s fv xv (2 * M + E) (M * (nr + fv * (1 - nr)) + E) Vs Vf Vxv) as (r & Vr & Er);
      [lra|lra|exact DB|exact YB|lra|].
    exists r. split; [exact Vr|].
    replace (r - (S + fv * (xv - S))) with ((r - (s + fv * (xv - s))) + (1 - fv) * (s - S)) by ring.
    eapply Rle_trans; [apply Rabs_triang|]. rewrite (Rabs_mult (1 - fv)), (Rabs_pos_eq (1 - fv)) by lra.
    assert (X1 : (1 - fv) * Rabs (s - S) <= (1 - fv) * E) by (apply Rmult_le_compat_l; lra).
    unfold dbound. fold a b.
    assert (X2 : e * (fv * (2 * M + E)) <= 2 * (e * M) + e * E).
    { replace (2 * (e * M) + e * E) with (e * (2 * M + E)) by ring. apply Rmult_le_compat_l; [lra|].
      apply scale_le; lra. }
    assert (X3 : e * (M * (nr + fv * (1 - nr)) + E) <= e * M + e * E).
    { rewrite <- Rmult_plus_distr_l. apply Rmult_le_compat_l; lra. }
    assert (X4 : 14 * (e * E) <= fv * E) by (rewrite <- Rmult_assoc; apply Rmult_le_compat_r; lra).
    replace (a * (nr + fv * (1 - nr)) + b) with (E + a * fv - nr * (a * fv)) by (rewrite EE; ring).
    assert (X5 : fv * E = nr * (a * fv) + b * fv) by (rewrite EE; ring).
    rewrite af, bf in *. assert (nr * (26 * (e * M)) <= 26 * (e * M)) by nra. lra.
Qed.

Lemma dmean_fold f l : dm_factor F (fold_left (dmean_push F) l (dmean_init F f)) = f /\
  dm_norm F (fold_left (dmean_push F) l (dmean_init F f)) =
    fold_left (fun s x => nadd s (nmul f (nsub x s))) (map (fun _ => n1) l) n0 /\
  dm_sum F (fold_left (dmean_push F) l (dmean_init F f)) =
    fold_left (fun s x => nadd s (nmul f (nsub x s))) l n0.
Proof.
  induction l as [|x l (I1 & I2 & I3)] using rev_ind; [repeat split|].
  rewrite map_app, !fold_left_app. cbn [map fold_left]. rewrite <- I2, <- I3.
  set (s := fold_left (dmean_push F) l (dmean_init F f)) in *.
  unfold dmean_push. cbn [dm_factor dm_norm dm_sum]. rewrite I1. repeat split.
Qed.

Lemma dmean_acc f fv M l lv : val f fv -> 0 < fv <= 1 -> 0 <= M ->
  Forall2 val l lv -> Forall (fun x => Rabs x <= M) lv -> l <> [] ->
  104 * e <= fv -> 56 * t <= fv * fv -> 16 * (M + 1) <= B -> 32 <= B ->
  exists r, val (dmean_mean F (fold_left (dmean_push F) l (dmean_init F f))) r /\
    Rabs (r - ewma fv lv) <= 209 * e * M / fv + 57 * t * (1 + M) / (fv * fv).
Proof.
  intros Vf Hf HM V HX NE He104 Ht56 HB HB32. pose proof He as [E0 E1]. pose proof Ht as T0.
  destruct (decay_sum_acc f fv M l lv Vf Hf HM V HX) as (s & Vs & Es); [lra|lra|lra|].
  assert (V1 : Forall2 val (map (fun _ : F => n1) l) (map (fun _ : R => 1) lv)).
  { clear - V AP. induction V; cbn; constructor; [apply (ap_1 _ _ _ _ _ _ AP)|assumption]. }
  assert (HX1 : Forall (fun x => Rabs x <= 1) (map (fun _ : R => 1) lv)).
  { apply Forall_map, Forall_forall. intros ? _. rewrite Rabs_R1. lra. }
  destruct (decay_sum_acc f fv 1 _ _ Vf Hf ltac:(lra) V1 HX1) as (n & Vn & En); [lra|lra|lra|].
  rewrite map_length in En.
  pose proof (esum_ones (1 - fv) lv) as E. replace (1 - (1 - fv)) with fv in E by ring.
  rewrite E in En. fold (nrm fv (length lv)) in En.
  destruct (dmean_fold f l) as (_ & D2 & D3). unfold dmean_mean. rewrite D2, D3.
  pose proof (decayed_bound fv lv M Hf HX) as BS.
  assert (NEv : lv <> []) by (intros ->; inversion V; subst; contradiction).
  rewrite <- (ewma_nrm fv lv Hf NEv).
  assert (NG : fv <= nrm fv (length lv)).
  { destruct lv; [contradiction|]. apply nrm_ge. exact Hf. }
  pose proof (nrm_le1 fv (length lv) Hf) as N1.
  set (nr := nrm fv (length lv)) in *. set (S := fv * esum (1 - fv) lv) in *.
  clear E. unfold dbound in *.
  set (u := e / fv) in *. set (w := t / (fv * fv)) in *.
  assert (IV : 0 < / fv) by (apply Rinv_0_lt_compat; lra).
  assert (u0 : 0 <= u) by (apply Rmult_le_pos; lra).
  assert (w0 : 0 <= w).
  { apply Rmult_le_pos; [lra|]. left. apply Rinv_0_lt_compat. nra. }
  assert (ue : u * fv = e) by (unfold u; field; lra).
  assert (wt : w * fv * fv = t) by (unfold w; field; lra).
  assert (u1 : 104 * u <= 1) by (apply Rmult_le_reg_r with fv; lra).
  assert (w1 : 56 * w <= 1).
  { apply Rmult_le_reg_r with (fv * fv); [nra|]. replace (56 * w * (fv * fv)) with (56 * (w * fv * fv)) by ring. lra. }
  assert (eu : e <= u) by (rewrite <- ue; nra).
  assert (wf : t / fv = w * fv) by (unfold w; field; lra).
  assert (tw : t <= w).
  { rewrite <- wt. rewrite Rmult_assoc. rewrite <- (Rmult_1_r w) at 2. apply Rmult_le_compat_l; [lra|nra]. }
  replace (26 * (e * M) / fv * nr + 14 * t / fv) with (26 * (u * M) * nr + 14 * (t / fv)) in Es
    by (unfold u, Rdiv; ring).
  replace (26 * (e * 1) / fv * nr + 14 * t / fv) with (26 * u * nr + 14 * (t / fv)) in En
    by (unfold u, Rdiv; ring).
  rewrite wf in *.
  assert (wfn : w * fv <= w * nr) by (apply Rmult_le_compat_l; lra).
  assert (Es' : Rabs (s - S) <= (26 * (u * M) + 14 * w) * nr) by lra.
  assert (En' : Rabs (n - nr) <= (26 * u + 14 * w) * nr) by lra.
  assert (nn : nr / 2 <= n).
  { apply Rabs_le_inv in En'. assert ((26 * u + 14 * w) * nr <= / 2 * nr) by (apply Rmult_le_compat_r; lra). lra. }
  assert (PT : nlt n0 (fold_left (fun s0 x => nadd s0 (nmul f (nsub x s0))) (map (fun _ : F => n1) l) n0) = true).
  { rewrite (ap_lt _ _ _ _ _ _ AP _ _ _ _ (ap_0 _ _ _ _ _ _ AP) Vn). apply Rlt_bool_true. lra. }
  rewrite PT.
  set (g := 2 * (52 * (u * M) + 14 * w * (1 + M))).
  assert (uM : 0 <= u * M) by (apply Rmult_le_pos; lra).
  assert (wM : 0 <= w * M) by (apply Rmult_le_pos; lra).
  assert (G : Rabs (s / n - S / nr) <= g).
  { replace (s / n - S / nr) with (((s - S) * nr + - (S * (n - nr))) / (n * nr)) by (field; lra).
    unfold Rdiv. rewrite Rabs_mult, (Rabs_pos_eq (/ _)) by (left; apply Rinv_0_lt_compat; nra).
    apply Rmult_le_reg_r with (n * nr); [nra|]. rewrite Rmult_assoc, Rinv_l by nra. rewrite Rmult_1_r.
    eapply Rle_trans; [apply Rabs_triang|]. rewrite Rabs_Ropp, !Rabs_mult, (Rabs_pos_eq nr) by lra.
    assert (Y1 : Rabs (s - S) * nr <= (26 * (u * M) + 14 * w) * nr * nr) by (apply Rmult_le_compat_r; lra).
    assert (Y2 : Rabs S * Rabs (n - nr) <= (M * nr) * ((26 * u + 14 * w) * nr)).
    { apply Rmult_le_compat; try apply Rabs_pos; assumption. }
    assert (Y3 : g / 2 * nr * nr <= g * (n * nr)).
    { assert (0 <= g) by (unfold g; nra). replace (g * (n * nr)) with (g * nr * n) by ring.
      replace (g / 2 * nr * nr) with (g * nr * (nr / 2)) by field. apply Rmult_le_compat_l; [nra|exact nn]. }
    replace (g / 2 * nr * nr) with ((26 * (u * M) + 14 * w) * nr * nr + (M * nr) * ((26 * u + 14 * w) * nr)) in Y3
      by (unfold g; field). lra. }
  assert (SM : Rabs (S / nr) <= M).
  { unfold Rdiv. rewrite Rabs_mult, (Rabs_pos_eq (/ _)) by (left; apply Rinv_0_lt_compat; lra).
    apply Rmult_le_reg_r with nr; [lra|]. rewrite Rmult_assoc, Rinv_l by lra. lra. }
  assert (QM : Rabs (s / n) <= M + g).
  { replace (s / n) with (S / nr + (s / n - S / nr)) by ring. eapply Rle_trans; [apply Rabs_triang|]. lra. }
  assert (gM : g <= 2 * M + 1).
  { unfold g. assert (104 * (u * M) <= M) by (rewrite <- Rmult_assoc; apply scale_le; lra).
    assert (56 * (w * M) <= M) by (rewrite <- Rmult_assoc; apply scale_le; lra). lra. }
  assert (g0 : 0 <= g) by (unfold g; nra).
  destruct (ap_div _ _ _ _ _ _ AP _ _ _ _ Vs Vn) as (r & Vr & Nr); [lra|lra|]. unfold near in Nr.
  exists r. split; [exact Vr|].
  replace (209 * e * M / fv) with (209 * (u * M)) by (unfold u, Rdiv; ring).
  replace (57 * t * (1 + M) / (fv * fv)) with (57 * (w * (1 + M))) by (unfold w, Rdiv; ring).
  replace (r - S / nr) with ((r - s / n) + (s / n - S / nr)) by ring.
  eapply Rle_trans; [apply Rabs_triang|].
  assert (Z1 : e * Rabs (s / n) <= u * M + g).
  { eapply Rle_trans; [apply Rmult_le_compat_l; [lra|exact QM]|].
    pose proof (scale_le e g). assert (e * M <= u * M) by (apply Rmult_le_compat_r; lra). lra. }
  assert (Z2 : t <= w * (1 + M)) by (rewrite Rmult_plus_distr_l; lra).
  unfold g in *. lra.
Qed.

(** ** Sums of products *)

Lemma dot_fold_acc (u v : nat -> F) (uv vv : nat -> R) S l :
  (forall i, In i l -> val (u i) (uv i) /\ val (v i) (vv i)) ->
  Rsum (map (fun i => Rabs (uv i * vv i)) l) <= S ->
  (2 * INR (length l) + 4) * e <= 1 -> 3 * S + (6 * INR (length l) + 1) * t <= B ->
  exists r, val (fold_left (fun acc i => nadd acc (nmul (u i) (v i))) l n0) r /\
    Rabs (r - Rsum (map (fun i => uv i * vv i) l)) <=
      2 * (2 * (e * Rsum (map (fun i => Rabs (uv i * vv i)) l)) + INR (length l) * (e * S + 3 * t)).
Proof.
  intros HV HS He2 HB. pose proof He as [E0 E1]. pose proof Ht as T0.
  induction l as [|i l IH] using rev_ind.
  - exists 0. split; [apply (ap_0 _ _ _ _ _ _ AP)|]. cbn. rewrite Rminus_0_r, Rabs_R0. lra.
  - rewrite length_snoc, S_INR in *. rewrite !map_app, !Rsum_app in *. cbn [map Rsum] in *. rewrite !Rplus_0_r in *.
    set (n := INR (length l)) in *. assert (nn : 0 <= n) by apply pos_INR.
    set (P := Rsum (map (fun i => uv i * vv i) l)) in *.
    set (A := Rsum (map (fun i => Rabs (uv i * vv i)) l)) in *.
    set (p := uv i * vv i) in *.
    pose proof (Rabs_pos p) as p0.
    assert (A0 : Rabs P <= A).
    { unfold P, A. clear. induction l; cbn; [rewrite Rabs_R0; lra|]. eapply Rle_trans; [apply Rabs_triang|]. lra. }
    pose proof (Rabs_pos P) as P0.
    assert (ent : 0 <= n * t) by (apply Rmult_le_pos; lra).
    destruct IH as (s & Vs & Es); [intros j Hj; apply HV, in_or_app; left; exact Hj|lra|nra|lra|].
    destruct (HV i) as [Vu Vv]; [apply in_or_app; right; left; reflexivity|].
    rewrite fold_left_app. cbn [fold_left].
    assert (S0 : 0 <= S) by lra.
    set (E := 2 * (2 * (e * A) + n * (e * S + 3 * t))) in *.
    assert (ne : n * e <= / 2) by nra.
    assert (eA : 0 <= e * A <= e * S) by (split; [apply Rmult_le_pos|apply Rmult_le_compat_l]; lra).
    assert (eS : 0 <= e * S <= S) by (split; [apply Rmult_le_pos; lra|apply scale_le; lra]).
    assert (ES : E <= S + 6 * n * t).
    { unfold E. assert (X : (2 * n + 4) * e * S <= 1 * S) by (apply Rmult_le_compat_r; [exact S0|nra]).
      assert (n * (e * S) = n * e * S) by ring. nra. }
    assert (eE : e * E <= e * S + 3 * t).
    { eapply Rle_trans; [apply Rmult_le_compat_l; [lra|exact ES]|].
      rewrite Rmult_plus_distr_l. replace (e * (6 * n * t)) with (6 * (n * e) * t) by ring.
      apply Rplus_le_compat_l, Rmult_le_compat_r; lra. }
    assert (E00 : 0 <= E) by (unfold E; nra).
    assert (ep : 0 <= e * Rabs p <= Rabs p) by (split; [apply Rmult_le_pos; lra|apply scale_le; lra]).
    destruct (ap_mul _ _ _ _ _ _ AP _ _ _ _ Vu Vv) as (q & Vq & Nq); [fold p; lra|]. unfold near in Nq. fold p in Nq.
    assert (PP : Rabs (P + p) <= S) by (eapply Rle_trans; [apply Rabs_triang|]; lra).
    assert (AQ : Rabs (s + q) <= S + E + (e * Rabs p + t)).
    { replace (s + q) with ((P + p) + (s - P) + (q - p)) by ring.
      eapply Rle_trans; [apply Rabs_triang|]. apply Rplus_le_compat; [|exact Nq].
      eapply Rle_trans; [apply Rabs_triang|]. lra. }
    destruct (ap_add _ _ _ _ _ _ AP _ _ _ _ Vs Vq) as (r & Vr & Nr); [lra|]. unfold near in Nr.
    exists r. split; [exact Vr|].
    replace (r - (P + p)) with ((r - (s + q)) + ((s - P) + (q - p))) by ring.
    eapply Rle_trans; [apply Rabs_triang|]. pose proof (Rabs_triang (s - P) (q - p)).
    assert (X1 : e * Rabs (s + q) <= e * S + e * E + e * (e * Rabs p) + e * t).
    { eapply Rle_trans; [apply Rmult_le_compat_l; [lra|exact AQ]|]. lra. }
    pose proof (scale_le e t ltac:(lra) ltac:(lra)). pose proof (scale_le e (e * Rabs p) ltac:(lra) ltac:(lra)).
    replace (2 * (2 * (e * (A + Rabs p)) + (n + 1) * (e * S + 3 * t))) with
      (E + 4 * (e * Rabs p) + 2 * (e * S + 3 * t)) by (unfold E; ring).
    lra.
Qed.

Lemma val_nth l lv i : Forall2 val l lv -> val (nth i l n0) (nth i lv 0).
Proof.
  intros V. revert i. induction V; intros i; destruct i; cbn; try apply (ap_0 _ _ _ _ _ _ AP); auto.
Qed.

Lemma sumto_dot (f : R -> R) cv hv n : f 0 = 0 ->
  sumto (length cv) (fun i => f (nth i cv 0 * back hv n (S i))) =
  Rsum (map (fun i => f (nth (n - 1 - i) hv 0 * nth i cv 0)) (seq 0 (Nat.min (length cv) n))).
Proof.
  intros F0. fold (sumto (Nat.min (length cv) n) (fun i => f (nth (n - 1 - i) hv 0 * nth i cv 0))).
  replace (length cv) with (Nat.min (length cv) n + (length cv - n))%nat at 1 by lia.
  rewrite sumto_split. rewrite (sumto_zero (length cv - n)).
  - rewrite Rplus_0_r. apply sumto_ext. intros i Hi. unfold back.
    destruct (Nat.leb_spec (S i) n); [|lia]. rewrite Rmult_comm. f_equal. f_equal. f_equal. lia.
  - intros i Hi. unfold back.
    destruct (Nat.leb_spec (S (Nat.min (length cv) n + i)) n); [lia|]. rewrite Rmult_0_r. exact F0.
Qed.

(** Sum of the products, and of their magnitudes. *)
Definition dotR (cv hv : list R) (n : nat) : R := sumto (length cv) (fun i => nth i cv 0 * back hv n (S i)).
Definition dotA (cv hv : list R) (n : nat) : R := sumto (length cv) (fun i => Rabs (nth i cv 0 * back hv n (S i))).

Lemma dot_acc c h cv hv n S : Forall2 val c cv -> Forall2 val h hv ->
  dotA cv hv n <= S -> (2 * INR (length c) + 4) * e <= 1 -> 3 * S + (6 * INR (length c) + 1) * t <= B ->
  exists r, val (dot_before F c h n) r /\
    Rabs (r - dotR cv hv n) <= (2 * INR (length c) + 4) * e * S + 6 * INR (length c) * t.
Proof.
  intros Vc Vh HS He2 HB. pose proof He as [E0 E1]. pose proof Ht as T0.
  unfold dotA in HS. rewrite (sumto_dot Rabs) in HS by apply Rabs_R0.
  unfold dotR. rewrite (sumto_dot (fun x => x)) by reflexivity.
  unfold dot_before. rewrite (forall2_len _ _ _ Vc) in *.
  set (l := seq 0 (Nat.min (length cv) n)) in *.
  assert (LL : INR (length l) <= INR (length cv)).
  { apply le_INR. unfold l. rewrite seq_length. lia. }
  pose proof (pos_INR (length l)) as L0.
  assert (S0 : 0 <= S).
  { eapply Rle_trans; [|exact HS]. clear. induction l; cbn; [lra|]. pose proof (Rabs_pos (nth (n - 1 - a) hv 0 * nth a cv 0)). lra. }
  destruct (dot_fold_acc (fun i => nth (n - 1 - i) h n0) (fun i => nth i c n0)
    (fun i => nth (n - 1 - i) hv 0) (fun i => nth i cv 0) S l) as (r & Vr & Er).
  - intros i _. split; apply val_nth; assumption.
  - exact HS.
  - nra.
  - nra.
  - exists r. split; [exact Vr|]. eapply Rle_trans; [exact Er|].
    assert (X : e * Rsum (map (fun i => Rabs (nth (n - 1 - i) hv 0 * nth i cv 0)) l) <= e * S) by (apply Rmult_le_compat_l; lra).
    assert (Y : INR (length l) * (e * S + 3 * t) <= INR (length cv) * (e * S + 3 * t)).
    { apply Rmult_le_compat_r; [|exact LL]. pose proof (Rmult_le_pos e S E0 S0). lra. }
    nra.
Qed.

Lemma fir_acc c h cv hv ops S : Forall2 val c cv -> c <> [] -> since_clear ops = h -> h <> [] -> Forall2 val h hv ->
  dotA cv hv (length hv) <= S -> (2 * INR (length c) + 4) * e <= 1 -> 3 * S + (6 * INR (length c) + 1) * t <= B ->
  exists r, val (fir_value F (fir_run F c ops)) r /\
    Rabs (r - dotR cv hv (length hv)) <= (2 * INR (length c) + 4) * e * S + 6 * INR (length c) * t.
Proof.
  intros Vc NC Eh NH Vh HS He2 HB.
  destruct (fir_state F c ops NC) as (_ & _ & H). unfold fir_value. rewrite Eh in H. rewrite H by exact NH.
  rewrite (forall2_len _ _ _ Vh). apply dot_acc; assumption.
Qed.

(** ** Infinite impulse response *)

Lemma back_bound l n k Y : 0 <= Y -> (forall i, (i < length l)%nat -> Rabs (nth i l 0) <= Y) -> Rabs (back l n k) <= Y.
Proof.
  intros Y0 H. unfold back. destruct (k <=? n)%nat; [|rewrite Rabs_R0; exact Y0].
  destruct (Nat.lt_ge_cases (n - k) (length l)); [apply H; assumption|].
  rewrite nth_overflow by assumption. rewrite Rabs_R0. exact Y0.
Qed.

Lemma sumto_le n f g : (forall i, (i < n)%nat -> f i <= g i) -> sumto n f <= sumto n g.
Proof.
  intros H. unfold sumto. assert (G : forall l, (forall i, In i l -> f i <= g i) -> Rsum (map f l) <= Rsum (map g l)).
  { induction l as [|i l IH]; intros Hl; cbn [map Rsum]; [lra|].
    apply Rplus_le_compat; [apply Hl; left; reflexivity|apply IH; intros; apply Hl; right; assumption]. }
  apply G. intros i Hi. apply in_seq in Hi. apply H. lia.
Qed.

Lemma dotA_bound cv hv n Y : 0 <= Y -> (forall i, (i < n)%nat -> Rabs (nth i hv 0) <= Y) -> dotA cv hv n <= abs_sum cv * Y.
Proof.
  intros Y0 H. unfold dotA, abs_sum. rewrite <- sumto_nth_map.
  assert (E : forall m (f : nat -> R) z, sumto m f * z = sumto m (fun i => f i * z)).
  { intros m f z. unfold sumto. generalize (seq 0 m). induction l; cbn; [ring|]. rewrite <- IHl. ring. }
  rewrite E. apply sumto_le. intros i _. rewrite Rabs_mult. apply Rmult_le_compat_l; [apply Rabs_pos|].
  unfold back. destruct (Nat.leb_spec (Datatypes.S i) n); [apply H; lia|rewrite Rabs_R0; exact Y0].
Qed.

Lemma dotR_A cv hv n : Rabs (dotR cv hv n) <= dotA cv hv n.
Proof.
  unfold dotR, dotA, sumto. generalize (seq 0 (length cv)). induction l; cbn; [rewrite Rabs_R0; lra|].
  eapply Rle_trans; [apply Rabs_triang|]. lra.
Qed.

Lemma dotR_diff cv u v n E : 0 <= E -> (forall i, (i < n)%nat -> Rabs (nth i u 0 - nth i v 0) <= E) ->
  Rabs (dotR cv u n - dotR cv v n) <= abs_sum cv * E.
Proof.
  intros E0 H. unfold dotR.
  replace (sumto (length cv) (fun i => nth i cv 0 * back u n (Datatypes.S i)) -
           sumto (length cv) (fun i => nth i cv 0 * back v n (Datatypes.S i))) with
    (sumto (length cv) (fun i => nth i cv 0 * (back u n (Datatypes.S i) - back v n (Datatypes.S i)))).
  - unfold abs_sum. rewrite <- sumto_nth_map. apply sumto_bound. intros i _. unfold back.
    destruct (Nat.leb_spec (Datatypes.S i) n); [apply H; lia|rewrite Rminus_0_r, Rabs_R0; exact E0].
  - unfold sumto. generalize (seq 0 (length cv)). induction l; cbn; [ring|]. rewrite IHl. ring.
Qed.

(** Bound of the exact response. *)
Lemma iir_stable bv av sv hv y M Y : 0 <= M -> (forall i, (i < length hv)%nat -> Rabs (nth i hv 0) <= M) ->
  abs_sum av < Rabs sv -> difference_equation bv av sv hv y ->
  Y * (Rabs sv - abs_sum av) = abs_sum bv * M -> 0 <= Y ->
  forall n, (n < length y)%nat -> Rabs (nth n y 0) <= Y.
Proof.
  intros HM HX HS [L D] EY Y0 n. induction n as [n IH] using lt_wf_ind. intros Hn.
  pose proof (D n ltac:(lia)) as Dn.
  change (sumto (length bv) (fun i => nth i bv 0 * back hv n i)) with (dotR bv hv (S n)) in Dn.
  change (sumto (length av) (fun j => nth j av 0 * back y n (S j))) with (dotR av y n) in Dn.
  assert (B1 : Rabs (dotR bv hv (S n)) <= abs_sum bv * M).
  { eapply Rle_trans; [apply dotR_A|]. apply dotA_bound; [exact HM|]. intros i Hi. apply HX. lia. }
  assert (B2 : Rabs (dotR av y n) <= abs_sum av * Y).
  { eapply Rle_trans; [apply dotR_A|]. apply dotA_bound; [exact Y0|]. intros i Hi. apply IH; lia. }
  assert (P : 0 <= abs_sum av).
  { unfold abs_sum. clear. induction av; cbn; [lra|]. pose proof (Rabs_pos a). lra. }
  apply Rmult_le_reg_l with (Rabs sv); [lra|]. rewrite <- Rabs_mult, Dn.
  unfold Rminus at 1. eapply Rle_trans; [apply Rabs_triang|]. rewrite Rabs_Ropp. lra.
Qed.

Definition iir_local (r s Y : R) : R := (8 * r + 19) * e * Y + (24 * r + 2) * t / s + t.

Lemma iir_acc b a scale bv av sv ops hv y M Y E :
  Forall2 val b bv -> Forall2 val a av -> val scale sv -> b <> [] -> a <> [] ->
  Forall2 val (since_clear ops) hv -> 0 <= M -> (forall i, (i < length hv)%nat -> Rabs (nth i hv 0) <= M) ->
  abs_sum av < Rabs sv -> difference_equation bv av sv hv y ->
  Y * (Rabs sv - abs_sum av) = abs_sum bv * M -> 0 <= Y ->
  let r := INR (length b + length a) in
  let rho := abs_sum av / Rabs sv in
  2 * (8 * r + 19) * e <= 1 - rho ->
  E * (1 - rho) = 2 * iir_local r (Rabs sv) Y ->
  4 * (Rabs sv * (Y + E)) + (12 * r + 2) * t <= B ->
  (4 * (Rabs sv * (Y + E)) + (12 * r + 2) * t) / Rabs sv <= B ->
  hv <> [] ->
  exists v, val (iir_value F (iir_run F b a scale ops)) v /\ Rabs (v - last y 0) <= E.
Proof.
  intros Vb Va Vs NB NA Vh HM HX HS DE EY Y0 r rho Hce HE HB1 HB2 NH.
  pose proof He as [E0 E1]. pose proof Ht as T0.
  assert (P : 0 <= abs_sum av).
  { unfold abs_sum. clear. induction av; cbn; [lra|]. pose proof (Rabs_pos a). lra. }
  assert (PB : 0 <= abs_sum bv).
  { unfold abs_sum. clear. induction bv; cbn; [lra|]. pose proof (Rabs_pos a). lra. }
  set (s := Rabs sv) in *. assert (s0 : 0 < s) by lra.
  assert (rho1 : 0 <= rho < 1).
  { unfold rho. split; [apply Rmult_le_pos; [lra|left; apply Rinv_0_lt_compat; lra]|].
    apply Rmult_lt_reg_r with s; [lra|]. unfold Rdiv. rewrite Rmult_assoc, Rinv_l by lra. lra. }
  assert (sr : s * rho = abs_sum av) by (unfold rho; field; lra).
  assert (r0 : 2 <= r).
  { unfold r. change 2 with (INR 2). apply le_INR. destruct b, a; try contradiction. cbn. lia. }
  assert (LO : 0 <= iir_local r s Y).
  { unfold iir_local. assert (0 <= e * Y) by (apply Rmult_le_pos; lra).
    assert (0 <= (24 * r + 2) * t / s) by (apply Rmult_le_pos; [nra|left; apply Rinv_0_lt_compat; lra]). nra. }
  assert (EP : 0 <= E) by nra.
  pose proof (iir_stable bv av sv hv y M Y HM HX HS DE EY Y0) as BY.
  destruct DE as [Ly D].
  destruct (iir_value_last F b a scale ops NB NA) as (yh & Lh & VL & REC).
  assert (Lhv : length hv = length (since_clear ops)) by (symmetry; apply (forall2_len _ _ _ Vh)).
  assert (STEP : forall n, (n <= length hv)%nat -> exists zv, length zv = n /\ Forall2 val (firstn n yh) zv /\
    forall k, (k < n)%nat -> Rabs (nth k zv 0 - nth k y 0) <= E).
  { induction n as [|n IH]; intros Hn.
    - exists []. split; [reflexivity|]. split; [constructor|]. intros k Hk; lia.
    - destruct (IH ltac:(lia)) as (zv & Lz & Vz & Ez). clear IH.
      assert (FS : firstn (S n) yh = firstn n yh ++ [nth n yh n0]).
      { clear - Hn Lh Lhv. assert (n < length yh)%nat by lia. clear - H. revert n H.
        induction yh as [|y0 yh IH]; intros n H; [cbn in H; lia|]. destruct n; [reflexivity|].
        cbn [firstn app nth]. f_equal. apply IH. cbn in H. lia. }
      assert (R1 : nth n yh n0 = ndiv (nsub (dot_before F b (since_clear ops) (S n)) (dot_before F a (firstn n yh) n)) scale).
      { rewrite REC by lia. rewrite <- (dot_before_app F a (firstn n yh) (skipn n yh) n) by (rewrite firstn_length; lia).
        rewrite firstn_skipn. reflexivity. }
      set (T := s * (Y + E)) in *.
      assert (T0' : 0 <= T) by (unfold T; nra).
      assert (BZ : forall i, (i < n)%nat -> Rabs (nth i zv 0) <= Y + E).
      { intros i Hi. replace (nth i zv 0) with (nth i y 0 + (nth i zv 0 - nth i y 0)) by ring.
        eapply Rle_trans; [apply Rabs_triang|]. pose proof (BY i ltac:(lia)). pose proof (Ez i Hi). lra. }
      assert (AB : dotA bv hv (S n) <= abs_sum bv * M).
      { apply dotA_bound; [exact HM|]. intros i Hi. apply HX. lia. }
      assert (AA : dotA av zv n <= abs_sum av * (Y + E)) by (apply dotA_bound; [lra|exact BZ]).
      assert (ABT : abs_sum bv * M + abs_sum av * (Y + E) <= T).
      { unfold T. rewrite <- EY. nra. }
      assert (ABM : 0 <= abs_sum bv * M) by (apply Rmult_le_pos; lra).
      assert (AYE : 0 <= abs_sum av * (Y + E)) by (apply Rmult_le_pos; lra).
      set (p := INR (length b)) in *. set (q := INR (length a)) in *.
      assert (rpq : r = p + q) by (unfold r, p, q; apply plus_INR).
      assert (p0 : 0 <= p) by apply pos_INR. assert (q0 : 0 <= q) by apply pos_INR.
      assert (c1 : (2 * r + 4) * e <= 1) by nra.
      assert (pt : 0 <= p * t) by (apply Rmult_le_pos; lra).
      assert (qt : 0 <= q * t) by (apply Rmult_le_pos; lra).
      assert (rt : r * t = p * t + q * t) by (rewrite rpq; ring).
      destruct (dot_acc b (since_clear ops) bv hv (S n) (abs_sum bv * M) Vb Vh AB) as (f1 & V1 & E1'); [fold p; nra|fold p; lra|].
      destruct (dot_acc a (firstn n yh) av zv n (abs_sum av * (Y + E)) Va Vz AA) as (f2 & V2 & E2'); [fold q; nra|fold q; lra|].
      fold p in E1'. fold q in E2'.
      set (ff := dotR bv hv (S n)) in *. set (fb := dotR av zv n) in *.
      assert (Bff : Rabs ff <= abs_sum bv * M) by (eapply Rle_trans; [apply dotR_A|exact AB]).
      assert (Bfb : Rabs fb <= abs_sum av * (Y + E)) by (eapply Rle_trans; [apply dotR_A|exact AA]).
      set (f := (2 * r + 4) * (e * T) + 6 * (r * t)).
      assert (eT : 0 <= e * T <= T) by (split; [apply Rmult_le_pos; lra|apply scale_le; lra]).
      assert (EF : Rabs (f1 - ff) + Rabs (f2 - fb) <= f).
      { assert (X1 : (2 * p + 4) * e * (abs_sum bv * M) <= (2 * r + 4) * e * (abs_sum bv * M)) by (apply Rmult_le_compat_r; nra).
        assert (X2 : (2 * q + 4) * e * (abs_sum av * (Y + E)) <= (2 * r + 4) * e * (abs_sum av * (Y + E))) by (apply Rmult_le_compat_r; nra).
        assert (X3 : (2 * r + 4) * e * (abs_sum bv * M + abs_sum av * (Y + E)) <= (2 * r + 4) * e * T) by (apply Rmult_le_compat_l; nra).
        unfold f. rewrite rt. lra. }
      assert (f0 : 0 <= f) by (unfold f; nra).
      assert (fT : f <= T + 6 * (r * t)).
      { unfold f. apply Rplus_le_compat_r. rewrite <- Rmult_assoc. apply scale_le; lra. }
      assert (AD : Rabs (f1 - f2) <= T + f).
      { replace (f1 - f2) with ((ff + - fb) + ((f1 - ff) + - (f2 - fb))) by ring.
        eapply Rle_trans; [apply Rabs_triang|]. pose proof (Rabs_triang ff (- fb)) as Q1. pose proof (Rabs_triang (f1 - ff) (- (f2 - fb))) as Q2.
        rewrite Rabs_Ropp in Q1, Q2. lra. }
      destruct (ap_sub _ _ _ _ _ _ AP _ _ _ _ V1 V2) as (d & Vd & Nd); [lra|]. unfold near in Nd.
      assert (eTf : e * Rabs (f1 - f2) <= e * T + f).
      { eapply Rle_trans; [apply Rmult_le_compat_l; [lra|exact AD]|]. pose proof (scale_le e f). lra. }
      set (g := 2 * f + e * T + t).
      assert (GD : Rabs (d - (ff - fb)) <= g).
      { replace (d - (ff - fb)) with ((d - (f1 - f2)) + ((f1 - ff) + - (f2 - fb))) by ring.
        eapply Rle_trans; [apply Rabs_triang|]. pose proof (Rabs_triang (f1 - ff) (- (f2 - fb))) as Q2.
        rewrite Rabs_Ropp in Q2. unfold g. lra. }
      assert (FFB : Rabs (ff - fb) <= T).
      { unfold Rminus. eapply Rle_trans; [apply Rabs_triang|]. rewrite Rabs_Ropp. lra. }
      assert (g0 : 0 <= g) by (unfold g; lra).
      assert (BD : Rabs d <= T + g).
      { replace d with ((ff - fb) + (d - (ff - fb))) by ring. eapply Rle_trans; [apply Rabs_triang|]. lra. }
      assert (is0 : 0 < / s) by (apply Rinv_0_lt_compat; lra).
      assert (DV : forall z, Rabs (z / sv) = Rabs z * / s).
      { intros z. unfold Rdiv. rewrite Rabs_mult, Rabs_inv. reflexivity. }
      assert (svn : sv <> 0) by (intros ->; unfold s in s0; rewrite Rabs_R0 in s0; lra).
      destruct (ap_div _ _ _ _ _ _ AP _ _ _ _ Vd Vs svn) as (w & Vw & Nw).
      { rewrite DV. eapply Rle_trans; [|exact HB2]. unfold Rdiv. apply Rmult_le_compat_r; [lra|].
        unfold g in BD. lra. }
      unfold near in Nw. rewrite DV in Nw.
      exists (zv ++ [w]). split; [rewrite app_length; cbn; lia|].
      split; [rewrite FS; apply Forall2_app; [exact Vz|]; constructor; [rewrite R1; exact Vw|constructor]|].
      intros k Hk. destruct (Nat.eq_dec k n) as [->|NE].
      + rewrite app_nth2, Lz, Nat.sub_diag by lia. cbn [nth].
        pose proof (D n ltac:(lia)) as Dn.
        change (sumto (length bv) (fun i => nth i bv 0 * back hv n i)) with ff in Dn.
        change (sumto (length av) (fun j => nth j av 0 * back y n (S j))) with (dotR av y n) in Dn.
        set (yn := nth n y 0) in *. set (fy := dotR av y n) in *.
        assert (DD : Rabs (fb - fy) <= abs_sum av * E) by (apply dotR_diff; [exact EP|exact Ez]).
        replace (w - yn) with ((w - d / sv) + ((d - (ff - fb)) / sv + (- (fb - fy)) / sv)).
        2:{ replace yn with ((ff - fy) / sv) by (rewrite <- Dn; field; exact svn). field. exact svn. }
        eapply Rle_trans; [apply Rabs_triang|]. pose proof (Rabs_triang ((d - (ff - fb)) / sv) (- (fb - fy) / sv)) as Q.
        rewrite !DV in Q. rewrite Rabs_Ropp in Q.
        assert (Z1 : Rabs (d - (ff - fb)) * / s <= g * / s) by (apply Rmult_le_compat_r; lra).
        assert (Z2 : Rabs (fb - fy) * / s <= rho * E).
        { unfold rho. replace (abs_sum av / s * E) with ((abs_sum av * E) * / s) by (unfold Rdiv; ring).
          apply Rmult_le_compat_r; lra. }
        assert (Z3 : e * (Rabs d * / s) <= (e * T + g) * / s).
        { rewrite <- Rmult_assoc. apply Rmult_le_compat_r; [lra|].
          eapply Rle_trans; [apply Rmult_le_compat_l; [lra|exact BD]|]. pose proof (scale_le e g). lra. }
        assert (Z4 : g * / s + (e * T + g) * / s = (8 * r + 19) * e * (Y + E) + (24 * r + 2) * t / s).
        { unfold g, f, T. field. lra. }
        assert (Z5 : 2 * ((8 * r + 19) * e * E) <= (1 - rho) * E).
        { replace (2 * ((8 * r + 19) * e * E)) with (2 * (8 * r + 19) * e * E) by ring. apply Rmult_le_compat_r; lra. }
        unfold iir_local in HE. lra.
      + rewrite app_nth1 by lia. apply Ez. lia. }
  destruct (STEP (length hv) (le_n _)) as (zv & Lz & Vz & Ez).
  rewrite firstn_all2 in Vz by lia. rewrite VL.
  assert (LP : (0 < length hv)%nat) by (destruct hv; [contradiction|cbn; lia]).
  assert (LN : forall A (l : list A) d, last l d = nth (length l - 1) l d).
  { clear. intros A l d. induction l as [|x l IH] using rev_ind; [reflexivity|].
    rewrite last_last, app_length. cbn. rewrite app_nth2 by lia. replace (length l + 1 - 1 - length l)%nat with 0%nat by lia. reflexivity. }
  exists (nth (length hv - 1) zv 0). rewrite !LN. rewrite Lh, <- Lhv, Ly. split; [apply val_nth; exact Vz|].
  apply Ez. lia.
Qed.

End Filters.
