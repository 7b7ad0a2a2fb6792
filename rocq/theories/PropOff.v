(** * Properties proved in OffStmt.v, restated (written by tools/genprops.py) *)

From Coq Require Import ZArith Znumtheory List Bool Lia Ring Field.
From Verif Require Import Machine FieldModel ScalarModel EdwardsModel Spec OffSpec MachineFacts
  FieldLimb FieldOps FieldBytes NumTheory Primes Fp FieldF FieldInv FieldStmt ScalarOps ScalarBits Curve CurveGroup EdwardsF EdwardsY EdwardsStmt.
Import ListNotations.
Open Scope F_scope.
From Verif Require Import OffStmt.

(** ** C108: Points that are not on the curve *)

(** Addition does not ask in which order the points come, on the curve or off it. *)
Theorem C108_comm : forall ck P Q P' Q', reduced_ext P -> reduced_ext Q -> reduced_proj P' -> reduced_proj Q' ->
  ept_add ck P Q = ept_add ck Q P /\ ppt_add ck P' Q' = ppt_add ck Q' P'.
Proof. exact C108_comm_stmt. Qed.
Print Assumptions C108_comm.

(** The identity is neutral for every pair of coordinates. *)
Theorem C108_neutral : forall ck P A P', ext_at P A -> proj_at P' A ->
  (exists R, ept_add ck P ept_identity = Ok R /\ ext_at R A) /\
  (exists R, ppt_add ck P' ppt_identity = Ok R /\ proj_at R A).
Proof. exact C108_neutral_stmt. Qed.
Print Assumptions C108_neutral.

(** Doubling in extended coordinates never leaves the affine plane. It reaches the curve exactly from the points
    of the curve and their mirror images. *)
Theorem C108_ext_double : forall ck P A, ext_at P A ->
  exists R B, ept_double ck P = Ok R /\ ext_at R B /\ (on_curve B <-> on_curve A \/ on_curve (swapped A)).
Proof. exact C108_ext_double_stmt. Qed.
Print Assumptions C108_ext_double.

(** A point minus itself is the identity exactly on the curve. *)
Theorem C108_ext_self : forall ck P A, ext_at P A ->
  exists R b, ept_sub ck P P = Ok R /\ ept_eqb ck R ept_identity = Ok b /\ (b = true <-> on_curve A).
Proof. exact C108_ext_self_stmt. Qed.
Print Assumptions C108_ext_self.

Theorem C108_proj_self : forall ck P A, proj_at P A ->
  exists R b, ppt_sub ck P P = Ok R /\ ppt_eqb ck R ppt_identity = Ok b /\ (b = true <-> on_curve A).
Proof. exact C108_proj_self_stmt. Qed.
Print Assumptions C108_proj_self.

(** Doubling in projective coordinates does not use d: it stays on whichever curve of the family the point is on. *)
Theorem C108_proj_double : forall ck P A e, proj_at P A -> on_twist e A ->
  snd A * snd A <> fst A * fst A -> snd A * snd A <> fst A * fst A + (1 + 1) ->
  exists R B, ppt_double ck P = Ok R /\ proj_at R B /\ on_twist e B.
Proof. exact C108_proj_double_stmt. Qed.
Print Assumptions C108_proj_double.

(** Its third coordinate vanishes in the two cases left out, and only there. *)
Theorem C108_proj_double_zero : forall ck P A, proj_at P A ->
  exists R, ppt_double ck P = Ok R /\
    (residue (pZ R) = 0 <-> snd A * snd A = fst A * fst A \/ snd A * snd A = fst A * fst A + (1 + 1)).
Proof. exact C108_proj_double_zero_stmt. Qed.
Print Assumptions C108_proj_double_zero.

(** Where both doublings have a result and neither coordinate is zero, the two agree exactly on the curve. *)
Theorem C108_doublings : forall ck P Q A, ext_at P A -> proj_at Q A -> fst A <> 0 -> snd A <> 0 ->
  snd A * snd A <> fst A * fst A -> snd A * snd A <> fst A * fst A + (1 + 1) ->
  exists R S B C, ept_double ck P = Ok R /\ ext_at R B /\ ppt_double ck Q = Ok S /\ proj_at S C /\
    (B = C <-> on_curve A).
Proof. exact C108_doublings_stmt. Qed.
Print Assumptions C108_doublings.

(** Compressing a pair off the curve panics if no curve point has its ordinate. Else it gives that ordinate with
    the top bit set, whatever the abscissa. *)
Theorem C108_compress : forall ck P A, ext_at P A -> ~ on_curve A ->
  (ept_compress ck P = Panic <-> forall x, ~ on_curve (x, snd A)) /\
  forall x, on_curve (x, snd A) ->
    exists b, ept_compress ck P = Ok b /\ is_bytes 32 b /\ le_value b = (Fval (snd A) + 2 ^ 255)%Z.
Proof. exact C108_compress_stmt. Qed.
Print Assumptions C108_compress.

(** Compression and decompression give back a point equal to P exactly for the curve points with y below 2^252. *)
Theorem C108_round_trip : forall ck P A, ext_at P A ->
  ((exists b Q, ept_compress ck P = Ok b /\ cey_decompress ck b = Ok (Some Q) /\ ept_eqb ck Q P = Ok true) <->
   on_curve A /\ (Fval (snd A) < 2 ^ 252)%Z).
Proof. exact C108_round_trip_stmt. Qed.
Print Assumptions C108_round_trip.

(** The sum of two pairs: the affine formula, as long as its denominators are not zero; else Z = 0. *)
Theorem C108_add : forall ck P Q A B, ext_at P A -> ext_at Q B ->
  exists R, ept_add ck P Q = Ok R /\
    let t := cd * (fst A * fst B) * (snd A * snd B) in
    (residue (eZ R) = 0 <-> t * t = 1) /\
    (t * t <> 1 -> ext_at R ((fst A * snd B + snd A * fst B) / (1 + t), (snd A * snd B + fst A * fst B) / (1 - t))).
Proof. exact C108_add_stmt. Qed.
Print Assumptions C108_add.

Theorem C108_proj_add : forall ck P Q A B, proj_at P A -> proj_at Q B ->
  exists R, ppt_add ck P Q = Ok R /\
    let t := cd * (fst A * fst B) * (snd A * snd B) in
    (residue (pZ R) = 0 <-> t * t = 1) /\
    (t * t <> 1 -> proj_at R ((fst A * snd B + snd A * fst B) / (1 + t), (snd A * snd B + fst A * fst B) / (1 - t))).
Proof. exact C108_proj_add_stmt. Qed.
Print Assumptions C108_proj_add.

Example C108_nonvacuous :
  let P := EP (fe_from_u8 2) (fe_from_u8 3) fe_one (fe_from_u8 6) in
  let Q := PP (fe_from_u8 2) (fe_from_u8 3) fe_one in let A := (toF 2, toF 3) in
  (forall x, ~ on_curve (x, toF 6)) /\ cd * (1 * 1) * (1 * / cd) * (cd * (1 * 1) * (1 * / cd)) = 1 /\
  ext_at P A /\ proj_at Q A /\ ~ on_curve A /\ ~ on_curve (swapped A) /\ on_twist (/ toF 9) A /\
  fst A <> 0 /\ snd A <> 0 /\ snd A * snd A <> fst A * fst A /\ snd A * snd A <> fst A * fst A + (1 + 1) /\
  ext_at (EP (fe_from_u8 2) fe_one fe_one (fe_from_u8 2)) (toF 2, 1) /\ ~ on_curve (toF 2, 1) /\ on_curve (0, 1).
Proof. exact C108_ex. Qed.
