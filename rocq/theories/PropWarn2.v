(** * Conversion of WRF output: warnings and units

    Theorems only; the proofs are in LemFinWarn2.v and the files it uses. *)

From Verif Require Import ModelPy ModelConstants ModelNode ModelGrid ModelHeat ModelSurface ModelInit ModelCore ModelConfig ModelIO ModelMain ModelRadCor SpecIO SpecRadCor ModelAws ModelWrf SpecWrf.
From Verif Require Import LemFinWarn2.

(** C113.  Names, units and descriptions of the seventeen variables converted from WRF output, in the order of the file.  Finding: the temperature is given the unit m. *)
Theorem wrf_file_units :
  forall c cfg slope aspect w sd ed f chk,
    create_input c cfg slope aspect w sd ed = Ok (f, chk) ->
    map (fun nv => (fst nv, (wv_units (snd nv), wv_long_name (snd nv)))) (cf_vars f) = wrf_units.
Proof. exact wrf_file_units_lem. Qed.
Print Assumptions wrf_file_units.

(** C113.  The conversion of WRF output prints a warning on a variable if and only if one of its values in the file is out of its range. *)
Theorem wrf_warnings :
  forall c cfg slope aspect w sd ed f ws,
    create_input c cfg slope aspect w sd ed = Ok (f, Ok ws) ->
    NoDup ws /\
    forall n, In n ws <-> exists mn mx, In (n, (mn, mx)) wrf_ranges /\ wrf_outside f n mn mx.
Proof. exact wrf_warnings_lem. Qed.
Print Assumptions wrf_warnings.

(** C113.  Without the grid spacing in the WRF file the conversion, otherwise successful, ends with AttributeError. *)
Theorem wrf_no_spacing :
  forall c (cfg : dict R) slope aspect w sd ed n ny nx,
    wrf_shape n ny nx (select_period sd ed w) -> (0 < n)%nat ->
    dict_find cfg "hu"%string <> None -> dict_find cfg "lu_class"%string <> None ->
    w_DX w = None \/ w_DY w = None ->
    c_densification_method c <> "constant"%string \/ c_constant_density c <> 0 ->
    create_input c cfg slope aspect w sd ed = Err AttributeError.
Proof. exact wrf_no_spacing_lem. Qed.
Print Assumptions wrf_no_spacing.
