(** When the emissivity of a clear sky is below 1: air temperature [Ta] in
    kelvin, vapour pressure [e] in hPa. *)
From Coq Require Import Reals String List Bool.
Local Open Scope R_scope.

Definition below_one (option : string) (Ta e : R) : Prop :=
  if (String.eqb option "DEFAULT" || String.eqb option "TVA")%bool then e < 0.26 / 0.0049          (* 53.06 hPa *)
  else if String.eqb option "ANDERSON" then e < (0.32 / 0.036) ^ 2                                  (* 79.01 hPa *)
  else if String.eqb option "BRUTSAERT" then e < Ta * Rpower (/ 1.24) (/ 0.14285714)
  else if String.eqb option "SATTERLUND" then e < Rpower (ln 13.5) (2016 / Ta)
  else if String.eqb option "IDSO" then e < 0.3 / 5.95e-5 * exp (- (1500 / Ta))
  else True.
