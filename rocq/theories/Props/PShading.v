(** C22, continued: the Passias masking angle as an average. *)
From Coquelicot Require Import Coquelicot.
From Verif Require Import Base.Fl Base.FlFacts Model.Shading Proofs.Passias.
Open Scope R_scope.

(** the Passias angle is the mean (integral over the slant height) of masking_angle *)
Theorem C22_passias_is_mean_masking_angle : forall tilt gcr f, 0 < tilt < 180 -> 0 < gcr < 1 ->
  (forall x, 0 <= x <= 1 -> masking_angle #tilt #gcr #x = #(f x)) ->
  exists m, masking_angle_passias #tilt #gcr = #m /\ is_RInt f 0 1 m.
Proof. exact passias_mean. Qed.
Print Assumptions C22_passias_is_mean_masking_angle.
Theorem C22_passias_flat : forall gcr, 0 < gcr < 1 -> masking_angle_passias #0 #gcr = #0.
Proof. exact passias_flat. Qed.
Print Assumptions C22_passias_flat.
(** masking_angle is finite on the whole slant height, so such an [f] exists *)
Example C22_passias_nonvacuous : exists f, forall x, 0 <= x <= 1 -> masking_angle #30 #0.5 #x = #(f x).
Proof. eexists. intros x Hx. apply masking_fin; lra. Qed.
