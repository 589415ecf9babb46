(** * Vocabulary for the checks of converted station data *)
From Verif Require Import ModelPy ModelConstants ModelNode ModelGrid ModelHeat ModelSurface ModelInit
  ModelCore ModelConfig ModelIO ModelMain ModelRadCor SpecIO SpecRadCor ModelAws SpecAws.

(** the ranges of the variables of an input file: name, smallest and largest value without a warning *)
Definition warning_ranges : list (string * (R * R)) :=
  [("T2", (223.16, 316.16)); ("RH2", (0, 100)); ("U2", (0, 50)); ("G", (0, 1600)); ("PRES", (200, 1080));
   ("RRR", (0, 20)); ("SNOWFALL", (0, 0.05)); ("LWin", (0, 400)); ("N", (0, 1))]%string.

(** a warning on the variable [fst nw] of the file is printed ([snd nw = true]) if and only if one of its numbers
    is out of its range *)
Definition warns_rightly (f : ncfile) (nw : string * bool) : Prop :=
  exists var mn mx,
    dict_find (nf_vars f) (fst nw) = Some var /\ In (fst nw, (mn, mx)) warning_ranges /\
    (snd nw = true <-> exists v, In (Some v) (array_values (v_data var)) /\ (v < mn \/ mx < v)).

(** unit and meaning of each variable of an input file *)
Definition input_units : list (string * (string * string)) :=
  [("HGT", ("m", "Elevation")); ("SLOPE", ("degrees", "Terrain slope"));
   ("ASPECT", ("degrees", "Aspect of slope")); ("MASK", ("boolean", "Glacier mask"));
   ("T2", ("K", "Temperature at 2 m")); ("PRES", ("hPa", "Atmospheric Pressure"));
   ("RH2", ("%", "Relative humidity at 2 m")); ("N", ("%", "Cloud cover fraction"));
   ("RRR", ("mm", "Total precipitation (liquid+solid)")); ("SNOWFALL", ("m", "Snowfall"));
   ("U2", ("m s⁻¹", "Wind velocity at 2 m")); ("G", ("W m⁻²", "Incoming shortwave radiation"));
   ("LWin", ("W m⁻²", "Incoming longwave radiation"))]%string.

(** dimensions of the fields of an input file *)
Definition file_dims (cfg : AwsConfig) : list string :=
  (if negb (aw_point_model cfg) && aw_WRF cfg then ["south_north"; "west_east"] else ["lat"; "lon"])%string.
