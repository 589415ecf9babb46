(** * Conversion of weather station data: when it succeeds, ranges of the values

    Theorems only; the proofs are in LemFinAws2.v and the files it uses. *)

From Verif Require Import ModelPy ModelConstants ModelNode ModelGrid ModelHeat ModelSurface ModelInit ModelCore ModelConfig ModelIO ModelMain ModelRadCor SpecIO SpecRadCor ModelAws SpecAws.
From Verif Require Import LemFinAws2.

From Coq Require Import Sorted.

(** C78.  When the conversion for a point succeeds: the columns are there, every hour has numbers of the required columns and of each optional column that is not empty, the temperatures are possible, longwave radiation or cloud cover is given, and the dates can be read. *)
Theorem point_conversion_succeeds :
  forall parse (cfg : AwsConfig) (csv : frame) sd ed,
    NoDup (column_names cfg) -> rectangular csv ->
    sd = None \/ ed = None \/ (exists a b p q, sd = Some a /\ ed = Some b /\ parse a = Some p /\ parse b = Some q) ->
    0 < standard_atmosphere (aw_stationAlt cfg) -> 0 < standard_atmosphere (aw_hgt cfg) ->
    (exists b, hour_in_file parse csv sd ed b) ->
    (forall n b, In n [aw_T2 cfg; aw_RH2 cfg; aw_U2 cfg; aw_G cfg; aw_PRES cfg] ->
       hour_in_file parse csv sd ed b -> hourly_mean csv n b <> None) ->
    column csv (aw_RRR cfg) <> None ->
    (forall n, In n [aw_RRR cfg; aw_SNOWFALL cfg; aw_LWin cfg; aw_N cfg] ->
       ~ has_number csv n \/ forall b, hour_in_file parse csv sd ed b -> hourly_mean csv n b <> None) ->
    has_number csv (aw_LWin cfg) \/ has_number csv (aw_N cfg) ->
    (forall b v, hour_in_file parse csv sd ed b -> hourly_mean csv (aw_T2 cfg) b = Some v ->
       173.16 <= kelvin cfg v + (aw_hgt cfg - aw_stationAlt cfg) * aw_lapse_T cfg <= 373.16) ->
    exists f w, create_1D_input parse cfg csv None sd ed = Ok (f, w).
Proof. exact point_conversion_succeeds_lem. Qed.
Print Assumptions point_conversion_succeeds.

(** C77.  Precipitation of the file for a point, without lapse rate and dates: its total is the total of the station column after the gaps have been filled, thus the total of the station column if that has no gaps. *)
Theorem point_precipitation_total :
  forall parse (cfg : AwsConfig) (csv : frame) static f w c,
    NoDup (column_names cfg) -> rectangular csv ->
    (forall st, static = Some st -> plain_static st) ->
    create_1D_input parse cfg csv static None None = Ok (f, w) ->
    aw_lapse_RRR cfg = 0 -> column csv (aw_RRR cfg) = Some c -> has_number csv (aw_RRR cfg) ->
    (forall x, In (Some x) c -> 0 <= x) ->
    exists l, file_series f "RRR"%string 0 0 = Some l /\ sum_of l = sum_of (carried c) /\
      (~ In None c -> sum_of l = sum_of c).
Proof. exact point_precipitation_total_lem. Qed.
Print Assumptions point_precipitation_total.

(** C77.  Filling the gaps repeats precipitation: a station file with a total of 1 mm gives an input file with a total of 2 mm, without any lapse rate. *)
Theorem precipitation_repeated_refuted :
  exists parse cfg csv f w c l,
    create_1D_input parse cfg csv None None None = Ok (f, w) /\ aw_lapse_RRR cfg = 0 /\
    column csv (aw_RRR cfg) = Some c /\ sum_of c = 1 /\
    file_series f "RRR"%string 0 0 = Some l /\ sum_of l = 2.
Proof. exact precipitation_repeated_refuted_lem. Qed.
Print Assumptions precipitation_repeated_refuted.

(** A station file with gaps that is converted; the second hour has a humidity above 100 and the temperature is lowered by 3 K. *)
Example point_file_example :
  forall parse, exists f w, create_1D_input parse a_config a_station None None None = Ok (f, w) /\
    nf_time f = [0; 3600]%Z /\
    file_series f "T2"%string 0 0 = Some [Some (271 - 3); Some (274 - 3)] /\
    file_series f "RH2"%string 0 0 = Some [Some 50; Some 100] /\
    file_series f "RRR"%string 0 0 = Some [Some 2; Some 0] /\
    dict_find (nf_vars f) "N"%string = None.
Proof. exact point_file_example_lem. Qed.
