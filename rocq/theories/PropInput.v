(** * Reading the input

    Theorems only; the proofs are in LemFinInput.v and the files it uses. *)

From Verif Require Import ModelPy ModelConstants ModelNode ModelGrid ModelSurface ModelInit ModelCore ModelConfig ModelIO ModelMain SpecIO.
From Verif Require Import LemFinInput.

From Coq Require Import Permutation Sorted.

(** C48.  The check of the input never stops the program unless a checked field is empty.  It reports
   on exactly the known variables that the dataset has; a field is reported as valid if and only
   if all its numbers lie in the range of the table, NaNs being ignored.  For the slope the bounds
   are swapped: it is reported as valid only if it holds no number at all. *)
Theorem input_check :
  forall d,
    ((exists name arr, dict_find valid_range name <> None /\
        dict_find (g_vars d) name = Some arr /\ ~ some_entry arr) ->
       check_input_data d = Err ValueError) /\
    ((forall name arr, dict_find valid_range name <> None ->
        dict_find (g_vars d) name = Some arr -> some_entry arr) ->
     exists msgs, check_input_data d = Ok msgs /\
       map fst msgs =
         filter (fun name => match dict_find (g_vars d) name with Some _ => true | None => false end)
           (map fst valid_range) /\
       forall name ok, In (name, ok) msgs ->
         exists arr lo hi, dict_find (g_vars d) name = Some arr /\
           dict_find valid_range name = Some (lo, hi) /\
           (if String.eqb name "SLOPE" then (ok = true <-> all_nan arr)
            else (ok = true <-> values_within lo hi arr))).
Proof. exact input_check_lem. Qed.
Print Assumptions input_check.

(** a valid temperature, an excessive wind, and a slope of 20 degrees, which is warned about *)
Example input_check_case :
  exists d, check_input_data d = Ok [("T2"%string, true); ("U2"%string, false); ("SLOPE"%string, false)].
Proof. exact input_check_case_lem. Qed.

(** C49.  With an ascending time axis the selected data are the data of the period, each value under
   its own time: the selected series of a cell, with the selected labels, is the part of the labelled
   series of the file that lies in the period.  Static fields are left as they are. *)
Theorem time_labels_kept :
  forall parse cfg raw rd sel msgs,
    ascending (g_times raw) ->
    init_data_dataset parse cfg (Some raw) rd = Ok (sel, msgs) ->
    exists lo hi, period parse cfg rd lo hi /\
      g_times sel = filter (between lo hi) (g_times raw) /\
      map fst (g_vars sel) = map fst (g_vars raw) /\
      (forall name arr, In (name, arr) (g_vars raw) ->
         In name ["HGT"; "MASK"; "SLOPE"; "ASPECT"]%string -> In (name, arr) (g_vars sel)) /\
      (forall name arr, In (name, arr) (g_vars raw) ->
         ~ In name ["HGT"; "MASK"; "SLOPE"; "ASPECT"]%string ->
         exists arr', In (name, arr') (g_vars sel) /\
           forall y x l, cell_at arr y x = Some (Series l) -> length l = length (g_times raw) ->
             exists l', cell_at arr' y x = Some (Series l') /\
               combine (g_times sel) l' =
               filter (fun tv => between lo hi (fst tv)) (combine (g_times raw) l)).
Proof. exact time_labels_kept_lem. Qed.
Print Assumptions time_labels_kept.

(** C49.  With an unsorted time axis the labels are sorted but the data are not: for a file with the
   times 3600 and 0 and the temperatures 280 and 270 the run sees 280 at time 0. *)
Theorem unsorted_time_mislabels_refuted :
  exists parse cfg raw sel msgs arr l,
    init_data_dataset parse cfg (Some raw) None = Ok (sel, msgs) /\
    In ("T2"%string, [[Series [Some 280; Some 270]]]) (g_vars raw) /\
    g_times raw = [3600; 0]%Z /\
    In ("T2"%string, arr) (g_vars sel) /\ cell_at arr 0 0 = Some (Series l) /\
    In (0%Z, Some 280) (combine (g_times sel) l) /\
    ~ In (0%Z, Some 280) (combine (g_times raw) [Some 280; Some 270]).
Proof. exact unsorted_time_mislabels_refuted_lem. Qed.
Print Assumptions unsorted_time_mislabels_refuted.

(** C49.  Whatever the axis, the labels of the selected data are exactly the labels of the file that lie
   in the period, in ascending order if the file is. *)
Theorem time_labels_complete :
  forall parse cfg raw rd sel msgs,
    init_data_dataset parse cfg (Some raw) rd = Ok (sel, msgs) ->
    exists lo hi, period parse cfg rd lo hi /\
      Permutation (g_times sel) (filter (between lo hi) (g_times raw)).
Proof. exact time_labels_complete_lem. Qed.
Print Assumptions time_labels_complete.

(** C64.  A restarted run reads the steps from the time of the restart file plus the step length on: if
   the steps of the file are a multiple of the step length apart from the restart time, the new run
   continues with exactly the later steps. *)
Theorem restart_continues :
  forall parse cfg raw last dt sel msgs,
    ascending (g_times raw) -> (0 < dt)%Z ->
    (forall t, In t (g_times raw) -> exists k, (t = last + k * dt)%Z) ->
    init_data_dataset parse cfg (Some raw) (Some (last + dt)%Z) = Ok (sel, msgs) ->
    exists hi e, slice_bounds parse (rc_time_end cfg) = Ok (e, hi) /\
      g_times sel = filter (fun t => (last <? t) && (t <=? hi))%Z%bool (g_times raw).
Proof. exact restart_continues_lem. Qed.
Print Assumptions restart_continues.

(** C64.  Otherwise the steps between the restart time and the restart time plus the step length are
   lost: with a step length of 3600 s and a file with the times 0, 1800, 3600 and 5400, a run
   restarted at 0 never sees 1800. *)
Theorem restart_skips_steps_refuted :
  exists parse cfg raw sel msgs,
    ascending (g_times raw) /\
    init_data_dataset parse cfg (Some raw) (Some (0 + 3600)%Z) = Ok (sel, msgs) /\
    In 1800%Z (g_times raw) /\ g_times sel = [3600; 5400]%Z.
Proof. exact restart_skips_steps_refuted_lem. Qed.
Print Assumptions restart_skips_steps_refuted.

(** C64.  A restarted run never completes through the main program: a start time in text has no strftime
   once it is a numpy time (AttributeError), and a start date of the TOML file cannot be cut into the
   name of the output file (TypeError at the very end, after the computation). *)
Theorem restart_never_completes :
  forall parse cfg c work arrivals file open_restart stakes measured w,
    rc_restart cfg = true ->
    cosipy_main parse cfg c work arrivals file open_restart stakes measured <> Ok w.
Proof. exact restart_never_completes_lem. Qed.
Print Assumptions restart_never_completes.

(** C64.  With a start time in text a restarted run stops at once, before any cell is computed. *)
Theorem restart_text_fails_early :
  forall parse cfg c work arrivals file open_restart stakes measured s t u te,
    rc_restart cfg = true -> rc_time_start cfg = VStr s -> parse s = Some (t, u) ->
    get_datetime parse (rc_time_end cfg) = Ok te ->
    cosipy_main parse cfg c work arrivals file open_restart stakes measured = Err AttributeError.
Proof. exact restart_text_fails_early_lem. Qed.
Print Assumptions restart_text_fails_early.
