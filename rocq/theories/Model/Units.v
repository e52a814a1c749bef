(** metsim/units.py and the unit tables of metsim/metsim.py *)
From Coq Require Import ZArith Reals String List Bool.
From Verif Require Import Model.Py Model.Fl Model.Constants.
Import ListNotations.
Local Open Scope string_scope.
Local Open Scope list_scope.
Local Open Scope fl_scope.

Definition converter := fl -> Z -> fl.
Definition ident : converter := fun x _ => x.

(** [converters], units.py:3-59 *)
Definition converters : dict (dict converter) :=
  let water : dict converter :=
    [("mm timestep-1", ident);
     ("mm h-1", fun x ts => x / (#(IZR ts) / #MIN_PER_HOUR));
     ("mm s-1", fun x ts => x / (#(IZR ts) * #SEC_PER_MIN))] in
  let tempr : dict converter :=
    [("C", ident); ("K", fun x _ => x + #273.15)] in
  [ ("pet", water); ("prec", water);
    ("shortwave", [("W m-2", ident)]);
    ("longwave", [("W m-2", ident)]);
    ("t_max", tempr); ("t_min", tempr); ("temp", tempr);
    ("vapor_pressure", [("Pa", ident); ("hPa", fun x _ => x / #100); ("kPa", fun x _ => x / #1000)]);
    ("air_pressure", [("kPa", ident); ("hPa", fun x _ => x * #100); ("Pa", fun x _ => x * #1000)]);
    ("tskc", [("fraction", ident); ("%", fun x _ => x * #100)]);
    ("rel_humid", [("%", ident); ("fraction", fun x _ => x / #100)]);
    ("spec_humid", [("g g-1", ident)]);
    ("wind", [("m s-1", ident)]);
    ("daylength", [("s", ident)]) ].

(** converters[varname][units] *)
Definition converter_for (varname units : string) : res converter :=
  do d <- dict_getitem converters varname; dict_getitem d units.

(** available_outputs / attrs: default units, metsim.py:75-127 *)
Definition default_units : dict string :=
  [ ("pet", "mm timestep-1"); ("prec", "mm timestep-1"); ("shortwave", "W m-2");
    ("longwave", "W m-2"); ("t_max", "C"); ("t_min", "C"); ("temp", "C");
    ("vapor_pressure", "Pa"); ("air_pressure", "kPa"); ("tskc", "fraction");
    ("rel_humid", "%"); ("daylength", "s"); ("spec_humid", "g g-1"); ("wind", "m s-1") ].
