(** metsim/constants.py:38-80 *)
From Coq Require Import Reals ZArith.
Local Open Scope R_scope.

Definition DEG_PER_REV := 360.0.                 (* constants.py:38 *)
Definition SEC_PER_RAD := 13750.9871.            (* :39 *)
Definition RAD_PER_DAY := 0.017214.              (* :40 *)
Definition RAD_PER_DEG := 0.01745329.            (* :41 *)
Definition MIN_DECL := -0.4092797.               (* :42 *)
Definition DAYS_OFF := 11.25.                    (* :43 *)
Definition SW_RAD_DT := 30.0.                    (* :45 *)

Definition MA := 0.0289644.                      (* :47 *)
Definition R_GAS := 8.3143.                      (* :48, named R in Python *)
Definition R_DRY := 287.                         (* :49 *)
Definition G_STD := 9.80665.                     (* :50 *)
Definition P_STD := 101325.0.                    (* :51 *)
Definition T_STD := 288.15.                      (* :52 *)
Definition CP := 1010.0.                         (* :53 *)

Definition KELVIN := 273.15.                     (* :55 *)
Definition EPS := 0.62196351.                    (* :56 *)
Definition DAYS_PER_YEAR := 365.25.              (* :57 *)
Definition SEC_PER_DAY := 86400.                 (* :58 *)
Definition SEC_PER_MIN := 60.                    (* :59 *)
Definition MIN_PER_HOUR := 60.                   (* :60 *)
Definition HOURS_PER_DAY := 24.                  (* :61 *)
Definition MIN_PER_DAY : nat := 1440.            (* :62 *)
Definition SEC_PER_HOUR := 3600.                 (* :63 *)
Definition STEFAN_B := 5.669e-8.                 (* :64 *)

Definition MBAR_PER_BAR := 1000.0.               (* :67 *)
Definition MM_PER_CM := 10.0.                    (* :68 *)
Definition MAX_PERCENT := 100.0.                 (* :69 *)

Definition C_RAD := 1.5.                         (* :73, named C *)
Definition B0 := 0.031.                          (* :74 *)
Definition B1 := 0.201.                          (* :75 *)
Definition B2 := 0.185.                          (* :76 *)
Definition TBASE := 0.870.                       (* :77 *)
Definition ABASE := -6.1e-5.                     (* :78 *)

(** int(SEC_PER_DAY / SW_RAD_DT), used by disaggregate.py:652 and
    physics.py:221 *)
Definition RAD_STEPS : nat := 2880.
