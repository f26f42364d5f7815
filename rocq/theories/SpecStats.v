(** * Textbook definitions used by the specifications

    Nothing here mentions the model: plain two-pass definitions over lists of
    real numbers. *)

From Coq Require Import Reals List.
Import ListNotations.
Local Open Scope R_scope.

Fixpoint Rsum (l : list R) : R :=
  match l with
  | [] => 0
  | x :: l' => x + Rsum l'
  end.

(** Number of observations, as a real. *)
Definition card {A : Type} (l : list A) : R := INR (length l).

(** Arithmetic mean. *)
Definition mean (l : list R) : R := Rsum l / card l.

(** k-th central sum: sum of (x_i - mean)^k. *)
Definition csum (k : nat) (l : list R) : R :=
  Rsum (map (fun x => (x - mean l) ^ k) l).

(** Population and sample variance. *)
Definition variance (l : list R) : R := csum 2 l / card l.
Definition sample_variance (l : list R) : R := csum 2 l / (card l - 1).

(** Biased sample skewness g1 = m3 / m2^(3/2) and kurtosis m4 / m2^2, with
    m_k the k-th central moment. *)
Definition cmoment (k : nat) (l : list R) : R := csum k l / card l.
Definition skewness (l : list R) : R :=
  cmoment 3 l / (cmoment 2 l * sqrt (cmoment 2 l)).
Definition kurtosis (l : list R) : R := cmoment 4 l / (cmoment 2 l) ^ 2.

(** Bias-corrected versions (Octave manual: skewness(x,0), kurtosis(x,0)). *)
Definition sample_skewness (l : list R) : R :=
  sqrt (card l * (card l - 1)) / (card l - 2) * skewness l.
Definition sample_kurtosis (l : list R) : R :=
  3 + (card l - 1) / ((card l - 2) * (card l - 3))
      * ((card l + 1) * kurtosis l - 3 * (card l - 1)).

(** Pairs *)
Definition xs (l : list (R * R)) : list R := map fst l.
Definition ys (l : list (R * R)) : list R := map snd l.

(** Sum of products of deviations; population and sample covariance. *)
Definition cosum (l : list (R * R)) : R :=
  Rsum (map (fun p => (fst p - mean (xs l)) * (snd p - mean (ys l))) l).
Definition covariance (l : list (R * R)) : R := cosum l / card l.
Definition sample_covariance (l : list (R * R)) : R :=
  cosum l / (card l - 1).

(** Pearson's correlation coefficient. *)
Definition pearson (l : list (R * R)) : R :=
  covariance l / (sqrt (variance (xs l)) * sqrt (variance (ys l))).

(** Sum of squared residuals of the line y = a + b x. *)
Definition sse (a b : R) (l : list (R * R)) : R :=
  Rsum (map (fun p => (snd p - (a + b * fst p)) ^ 2) l).

(** All running means: mean of every non-empty prefix, in order. *)
Fixpoint running_means_from (pre l : list R) : list R :=
  match l with
  | [] => []
  | x :: l' => mean (pre ++ [x]) :: running_means_from (pre ++ [x]) l'
  end.
Definition running_means (l : list R) : list R := running_means_from [] l.

(** Constant lists and collinear points *)
Definition constant {A} (c : A) (l : list A) : Prop := Forall (eq c) l.
Definition collinear (a b : R) (l : list (R * R)) : Prop :=
  Forall (fun p => snd p = a + b * fst p) l.
