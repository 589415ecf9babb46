(** * Conversion of old configuration modules

    Theorems only; the proofs are in LemFinConvert.v and the files it uses. *)

From Verif Require Import ModelPy ModelConstants ModelNode ModelGrid ModelSurface ModelInit ModelCore ModelConfig ModelIO ModelMain ModelFiles ModelConvert SpecConfig SpecConvert.
From Verif Require Import LemFinConvert.

From Coq Require Import Ascii.

(** C97.  The prefix of the output from its old name: what comes before the last underscore. *)
Theorem prefix_before_underscore :
  forall p t, without "_" t -> output_prefix (p ++ "_" ++ t) = p.
Proof. exact prefix_before_underscore_lem. Qed.
Print Assumptions prefix_before_underscore.

(** C97.  Without any underscore the prefix is what comes before the last point, but with the points in it replaced by underscores; without a point as well the prefix is empty. *)
Theorem prefix_before_point :
  forall p t,
    (without "_" (p ++ "." ++ t) -> without "." t -> output_prefix (p ++ "." ++ t) = replace_char "." "_" p) /\
    (without "_" p -> without "." p -> output_prefix p = ""%string).
Proof. exact prefix_before_point_lem. Qed.
Print Assumptions prefix_before_point.

(** C97 A name with a date, a name without one, of which a part is lost, and a name with points. *)
Example prefix_examples :
  output_prefix "Zhadang_ERA5_20090101-20090110.nc" = "Zhadang_ERA5"%string /\
  output_prefix "my_run.nc" = "my"%string /\
  output_prefix "run.v2.nc" = "run_v2"%string.
Proof. exact prefix_examples_lem. Qed.

(** C97.  The constants: converting an old module and loading the result always works; every constant that the program has a name for gets the value of the old module, or 0 if the old module had none; the albedo and the stability scheme are replaced in the coupled mode only; no other attribute changes. *)
Theorem constants_converted :
  forall module config coupled attrs,
    dict_find config "WRF_X_CSPY"%string = Some coupled ->
    exists attrs', constants_load config (get_constants_params module) attrs = Ok attrs' /\
    (forall h k v, entry shipped_constants h k = Some v ->
       dict_find attrs' k =
         Some (if (truthy coupled && String.eqb k "albedo_method")%bool then VStr "Oerlemans98"
               else if (truthy coupled && String.eqb k "stability_correction")%bool then VStr "MO"
               else new_value module k)) /\
    (forall k, (forall h, entry shipped_constants h k = None) -> dict_find attrs' k = dict_find attrs k).
Proof. exact constants_converted_lem. Qed.
Print Assumptions constants_converted.

(** C97.  Hence, outside of the coupled mode, a run with the converted constants uses the same constants as before. *)
Theorem constants_preserved :
  forall module config coupled attrs attrs' c,
    dict_find config "WRF_X_CSPY"%string = Some coupled -> truthy coupled = false ->
    constants_load config (get_constants_params module) attrs = Ok attrs' ->
    consts_of module = Ok c -> consts_of attrs' = Ok c.
Proof. exact constants_preserved_lem. Qed.
Print Assumptions constants_preserved.

(** C97.  The configuration: if the old module names its output and the file of the output variables has its three lists, conversion and loading work.  Every setting of the program gets the value of the old module, or 0 if the old module had none, except for the prefix and the lists of the output, the names of the dimensions with WRF, the full fields in the coupled mode and zero workers; no other attribute changes. *)
Theorem config_converted :
  forall module variables name atm internal full attrs,
    dict_find module "output_netcdf"%string = Some (VStr name) ->
    dict_find variables "atm"%string = Some atm -> dict_find variables "internal"%string = Some internal ->
    dict_find variables "full"%string = Some full ->
    exists t attrs', get_config_params module variables = Ok t /\ config_load t attrs = Ok attrs' /\
    (forall h k v, entry shipped_config h k = Some v ->
       dict_find attrs' k = Some
         (if String.eqb k "output_prefix" then VStr (output_prefix name)
          else if String.eqb k "output_atm" then atm
          else if String.eqb k "output_internal" then internal
          else if String.eqb k "output_full" then full
          else if (old_switch module "WRF" && String.eqb k "northing")%bool then VStr "south_north"
          else if (old_switch module "WRF" && String.eqb k "easting")%bool then VStr "west_east"
          else if (old_switch module "WRF_X_CSPY" && String.eqb k "full_field")%bool then VBool true
          else if (equals_zero (new_value module "workers") && String.eqb k "workers")%bool then VNone
          else new_value module k)) /\
    (forall k, (forall h, entry shipped_config h k = None) -> dict_find attrs' k = dict_find attrs k).
Proof. exact config_converted_lem. Qed.
Print Assumptions config_converted.

(** C97.  The conversion fails in the other cases: without a name of the output with an AttributeError, without one of the lists with a KeyError. *)
Theorem config_conversion_fails :
  forall module variables,
    (dict_find module "output_netcdf"%string = None -> get_config_params module variables = Err AttributeError) /\
    (forall name, dict_find module "output_netcdf"%string = Some (VStr name) ->
       (exists n, In n ["atm"; "internal"; "full"]%string /\ dict_find variables n = None) ->
       get_config_params module variables = Err KeyError).
Proof. exact config_conversion_fails_lem. Qed.
Print Assumptions config_conversion_fails.

(** C97.  Hence, without WRF and outside of the coupled mode, the converted configuration describes the same run as the old settings under their new names. *)
Theorem config_preserved :
  forall module variables name atm internal full attrs t attrs' cfg,
    dict_find module "output_netcdf"%string = Some (VStr name) ->
    dict_find variables "atm"%string = Some atm -> dict_find variables "internal"%string = Some internal ->
    dict_find variables "full"%string = Some full ->
    old_switch module "WRF" = false -> old_switch module "WRF_X_CSPY" = false ->
    get_config_params module variables = Ok t -> config_load t attrs = Ok attrs' ->
    run_config_of (under_new_names module variables (output_prefix name)) = Ok cfg ->
    rc_time_start cfg <> VNone -> rc_time_end cfg <> VNone ->
    run_config_of attrs' = Ok cfg.
Proof. exact config_preserved_lem. Qed.
Print Assumptions config_preserved.

(** C50,C97.  The configuration of a utility: the section of its name in the file, whatever else is in the file; without such a section the one of an earlier load of the same process, or else an AttributeError. *)
Theorem utility_section :
  forall (T : Type) (t attrs : dict T) name,
    NoDup (map fst t) ->
    utility_config t attrs name =
      match dict_find t name with
      | Some s => Ok s
      | None => match dict_find attrs name with Some s => Ok s | None => Err AttributeError end
      end.
Proof. exact utility_section_lem. Qed.
Print Assumptions utility_section.

(** C97.  The converted configuration of aws2cosipy has the settings of the old module, or 0, for these names and no others; the path of the look-up table is not among them, so that the conversion with the corrected radiation stops with a KeyError when it comes to that path. *)
Theorem aws_converted :
  forall aws wrf, exists t,
    utility_config (get_utilities_params aws wrf) [] "aws2cosipy" = Ok t /\
    (forall h k, entry t h k =
       if existsb (fun hk => (String.eqb h (fst hk) && String.eqb k (snd hk))%bool)
         [("names", "PRES_var"); ("names", "T2_var"); ("names", "in_K"); ("names", "RH2_var"); ("names", "G_var");
          ("names", "RRR_var"); ("names", "U2_var"); ("names", "LWin_var"); ("names", "SNOWFALL_var"); ("names", "N_var");
          ("coords", "WRF"); ("coords", "aggregate"); ("coords", "aggregation_step"); ("coords", "delimiter");
          ("radiation", "radiationModule"); ("radiation", "LUT"); ("radiation", "dtstep"); ("radiation", "tcart");
          ("radiation", "timezone_lon"); ("radiation", "zeni_thld");
          ("points", "point_model"); ("points", "plon"); ("points", "plat"); ("points", "hgt");
          ("station", "stationName"); ("station", "stationAlt"); ("station", "stationLat");
          ("lapse", "lapse_T"); ("lapse", "lapse_RH"); ("lapse", "lapse_RRR"); ("lapse", "lapse_SNOWFALL")]%string
       then Some (new_value aws k) else None) /\
    get2 t "radiation" "LUT_path" = Err KeyError.
Proof. exact aws_converted_lem. Qed.
Print Assumptions aws_converted.

(** C97.  The converted sections of wrf2cosipy and create_static: the two constants of the old module, or 0; and empty paths, tiling and averaging switched on and zeros elsewhere, whatever was configured before. *)
Theorem other_utilities_converted :
  forall aws wrf,
    utility_config (get_utilities_params aws wrf) [] "wrf2cosipy" =
      Ok [("constants", [("hu", new_value wrf "hu"); ("lu_class", new_value wrf "lu_class")])]%string /\
    utility_config (get_utilities_params aws wrf) [] "create_static" =
      Ok [("paths", [("static_folder", VStr ""); ("dem_path", VStr ""); ("shape_path", VStr ""); ("output_file", VStr "")]);
          ("coords", [("tile", VBool true); ("aggregate", VBool true); ("aggregate_degree", VFloat 0);
             ("longitude_upper_left", VFloat 0); ("latitude_upper_left", VFloat 0);
             ("longitude_lower_right", VFloat 0); ("latitude_lower_right", VFloat 0)])]%string.
Proof. exact other_utilities_converted_lem. Qed.
Print Assumptions other_utilities_converted.

(** C97 The shipped files, seen as old modules, survive the conversion. *)
Example shipped_survive_conversion :
  let module := ("output_netcdf", VStr "Zhadang_ERA5_20090101-20090110.nc")%string :: entries shipped_config in
  let variables := [("atm", VStr "T2"); ("internal", VStr "MB"); ("full", VStr "T")]%string in
  exists t attrs attrs' cfg,
    get_config_params module variables = Ok t /\ config_load t [] = Ok attrs /\ run_config_of attrs = Ok cfg /\
    rc_output_prefix cfg = "Zhadang_ERA5"%string /\
    constants_load attrs (get_constants_params (entries shipped_constants)) [] = Ok attrs' /\
    consts_of attrs' = Ok default_constants.
Proof. exact shipped_survive_conversion_lem. Qed.
