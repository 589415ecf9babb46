(** * Vocabulary for the input that the result file repeats *)
From Verif Require Import ModelPy ModelIO.

(** names, units and long names of the fields without time ... *)
Definition repeated_static : list (string * (string * string)) :=
  [("HGT", ("m", "Elevation")); ("MASK", ("boolean", "Glacier mask"));
   ("SLOPE", ("degrees", "Terrain slope")); ("ASPECT", ("degrees", "Aspect of slope"))]%string.

(** ... and of those with time *)
Definition repeated_series : list (string * (string * string)) :=
  [("T2", ("K", "Air temperature at 2 m")); ("RH2", ("%", "Relative humidity at 2 m"));
   ("U2", ("m s-1", "Wind velocity at 2 m")); ("PRES", ("hPa", "Atmospheric pressure"));
   ("G", ("W m-2", "Incoming shortwave radiation")); ("RRR", ("mm", "Total precipitation"));
   ("SNOWFALL", ("m", "Snowfall")); ("N", ("-", "Cloud fraction"));
   ("LWin", ("W m-2", "Incoming longwave radiation"))]%string.

(** the simulation writes a variable of this name *)
Definition listed (cfg : RunConfig) (name : string) : Prop :=
  In name (get_output_variables (rc_output_internal cfg)) \/
  In name (get_output_variables (rc_output_atm cfg)) /\
  ~ In name ["T2"; "RH2"; "U2"; "RRR"; "N"; "G"; "PRES"]%string.

(** no number *)
Definition no_number (b : block) : Prop :=
  match b with
  | Series l => Forall (fun v => v = None) l
  | Layers rows => Forall (Forall (fun v => v = None)) rows
  end.

(** ** Units and long names of what is simulated *)
Definition simulated_units : list (string * (string * string)) :=
  [("RAIN", ("mm", "Liquid precipitation")); ("SNOWFALL", ("m w.e.", "Snowfall"));
   ("LWin", ("W m-2", "Incoming longwave radiation"));
   ("LWout", ("W m-2", "Outgoing longwave radiation")); ("H", ("W m-2", "Sensible heat flux"));
   ("LE", ("W m-2", "Latent heat flux")); ("B", ("W m-2", "Ground heat flux"));
   ("QRR", ("W m-2", "Rain heat flux")); ("TS", ("K", "Surface temperature"));
   ("ALBEDO", ("-", "Albedo")); ("Z0", ("m", "Roughness length"));
   ("surfMB", ("m w.e.", "Surface mass balance")); ("MB", ("m w.e.", "Mass balance"));
   ("Q", ("m w.e.", "Runoff")); ("SNOWHEIGHT", ("m", "Snowheight"));
   ("TOTALHEIGHT", ("m", "Total domain height")); ("LAYERS", ("-", "Number of layers"));
   ("ME", ("W m-2", "Available melt energy")); ("intMB", ("m w.e.", "Internal mass balance"));
   ("EVAPORATION", ("m w.e.", "Evaporation")); ("SUBLIMATION", ("m w.e.", "Sublimation"));
   ("CONDENSATION", ("m w.e.", "Condensation")); ("DEPOSITION", ("m w.e.", "Deposition"));
   ("REFREEZE", ("m w.e.", "Refreezing")); ("subM", ("m w.e.", "Subsurface melt"));
   ("surfM", ("m w.e.", "Surface melt")); ("MOL", ("m", "Monin Obukhov length"))]%string.
Definition layer_units : list (string * (string * string)) :=
  [("HEIGHT", ("m", "Layer height")); ("RHO", ("kg m^-3", "Layer density"));
   ("T", ("K", "Layer temperature")); ("LWC", ("kg m^-2", "layer liquid water content"));
   ("CC", ("J m^-2", "Cold content")); ("POROSITY", ("-", "Porosity"));
   ("ICE_FRACTION", ("-", "Layer ice fraction")); ("IRREDUCIBLE_WATER", ("-", "Irreducible water"));
   ("REFREEZE", ("m w.e.", "Refreezing"))]%string.
Definition restart_units : list (string * (string * string)) :=
  [("NLAYERS", ("-", "Number of layers")); ("NEWSNOWHEIGHT", ("m .w.e", "New snow height"));
   ("NEWSNOWTIMESTAMP", ("s", "New snow timestamp")); ("OLDSNOWTIMESTAMP", ("s", "Old snow timestamp"));
   ("LAYER_HEIGHT", ("m", "Layer height")); ("LAYER_RHO", ("kg m^-3", "Layer density"));
   ("LAYER_T", ("K", "Layer temperature")); ("LAYER_LWC", ("kg m^-2", "layer liquid water content"));
   ("LAYER_IF", ("-", "Layer ice fraction"))]%string.
