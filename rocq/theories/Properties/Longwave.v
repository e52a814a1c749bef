(** C93, C94: longwave radiation and water vapour. *)
From Coq Require Import ZArith Reals String List Bool.
From Verif Require Import Model.Py Model.Fl Model.Params Model.Disagg Spec.BlackBodySpec Proofs.EmissivityProofs.
Import ListNotations.
Local Open Scope list_scope.
Local Open Scope R_scope.

(** C93: with every option, more vapour gives more longwave; under a full
    Deardorff cloud it makes no difference. *)
Theorem C93_more_vapor : forall (Ts vps vps' cs : list fl) prm out out' k T vp vp' c,
  longwave Ts vps cs prm None = Ok out -> longwave Ts vps' cs prm None = Ok out' ->
  nth_error Ts k = Some (Some T) -> nth_error cs k = Some (Some c) ->
  nth_error vps k = Some (Some vp) -> nth_error vps' k = Some (Some vp') ->
  -273.15 < T -> 0 < vp < vp' -> 0 <= c <= 1 ->
  exists L L', nth_error out k = Some (Some L) /\ nth_error out' k = Some (Some L') /\ 0 < L <= L' /\
    (L = L' <-> upper (p_lw_cloud prm) = "CLOUD_DEARDORFF"%string /\ c = 1).
Proof. exact longwave_vapor. Qed.
Print Assumptions C93_more_vapor.

(** C94: between 0 and 50 C and up to 1.5 kPa, every option keeps a clear
    sky below a black body. *)
Theorem C94_below_black_body_partial : forall (Ts vps cs : list fl) prm out k T vp,
  longwave Ts vps cs prm None = Ok out ->
  nth_error Ts k = Some (Some T) -> nth_error vps k = Some (Some vp) -> nth_error cs k = Some (Some 0) ->
  0 <= T <= 50 -> 0 < vp <= 1.5 ->
  exists L, nth_error out k = Some (Some L) /\ 0 < L < 5.669e-8 * (T + 273.15) ^ 4.
Proof. exact longwave_below_black. Qed.
Print Assumptions C94_below_black_body_partial.

(** at any temperature and vapour pressure: exactly when, option by option *)
Theorem C94_exactly : forall (Ts vps cs : list fl) prm out k T vp,
  longwave Ts vps cs prm None = Ok out ->
  nth_error Ts k = Some (Some T) -> nth_error vps k = Some (Some vp) -> nth_error cs k = Some (Some 0) ->
  -273.15 < T -> 0 < vp ->
  exists L, nth_error out k = Some (Some L) /\ 0 < L /\
    (L < 5.669e-8 * (T + 273.15) ^ 4 <-> below_one (upper (p_lw_type prm)) (T + 273.15) (vp * 10)).
Proof. exact longwave_below_black_iff. Qed.
Print Assumptions C94_exactly.

Example C93_case : forall kind,
  In kind ["DEFAULT"; "TVA"; "ANDERSON"; "BRUTSAERT"; "SATTERLUND"; "IDSO"; "PRATA"]%string ->
  exists L L', longwave [Some 10] [Some 0.5] [Some 0] (sky kind "default") None = Ok [Some L] /\
    longwave [Some 10] [Some 1] [Some 0] (sky kind "default") None = Ok [Some L'] /\ 0 < L < L' /\
    L' < 5.669e-8 * (10 + 273.15) ^ 4.
Proof. exact sky_case. Qed.

(** C94 is false in hot and humid air. *)
Theorem C94_below_black_body_refuted : exists L,
  longwave [Some 35] [Some 5.5] [Some 0] (sky "tva" "default") None = Ok [Some L] /\
  5.669e-8 * (35 + 273.15) ^ 4 < L.
Proof. exact longwave_above_black. Qed.
Print Assumptions C94_below_black_body_refuted.
