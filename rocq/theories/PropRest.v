(** * Heat conduction comes to rest at constant flux (C130)

    Theorems only; the proofs are in LemFinRest.v and the files it uses. *)

From Verif Require Import ModelPy ModelConstants ModelNode ModelGrid ModelHeat Spec.
From Verif Require Import LemFinRest.

(** C130.  Every column has exactly one state of rest: temperatures with the first and the last one of the column, with the same heat flowing through all gaps. *)
Theorem one_rest :
  forall (c : Consts) (g : Grid),
    constants_ok c -> counted g -> conductive c (g_nodes g) -> (3 <= length (g_nodes g))%nat ->
    exists K, get_thermal_diffusivity c g = Ok K /\
      exists! S, same_ends S (temperatures (g_nodes g)) /\ constant_flux (heights (g_nodes g)) K S.
Proof. exact one_rest_lem. Qed.
Print Assumptions one_rest.

(** C130.  Conduction changes nothing in the state of rest: a column with the same flux through all gaps stays as it is over every time step. *)
Theorem rest_stays :
  forall (c : Consts) (g : Grid) (K : list R) (dt : R),
    constants_ok c -> counted g -> conductive c (g_nodes g) -> (3 <= length (g_nodes g))%nat ->
    get_thermal_diffusivity c g = Ok K ->
    constant_flux (heights (g_nodes g)) K (temperatures (g_nodes g)) ->
    exists N, forall fuel, (N <= fuel)%nat -> solveHeatEquation fuel c g dt = Ok g.
Proof. exact rest_stays_lem. Qed.
Print Assumptions rest_stays.

(** C130.  Left to itself the column comes to rest.  There is a relaxation time and a factor, the same for all temperatures and time steps, such that after conduction over any time steps the distance of every temperature from the state of rest has fallen at least like the exponential of the time over the relaxation time. *)
Theorem conduction_relaxes :
  forall (c : Consts) (g : Grid) (K : list R),
    constants_ok c -> counted g -> conductive c (g_nodes g) -> (3 <= length (g_nodes g))%nat ->
    get_thermal_diffusivity c g = Ok K ->
    exists relaxation factor, 0 < relaxation /\ 0 < factor /\
      forall (g1 g2 : Grid) (dts S : list R) (M : R),
        counted g1 -> Forall2 only_temperature (g_nodes g) (g_nodes g1) -> Forall (fun dt => 0 <= dt) dts ->
        conducted c dts g1 g2 ->
        same_ends S (temperatures (g_nodes g1)) -> constant_flux (heights (g_nodes g)) K S ->
        (forall i, (i < length (g_nodes g))%nat -> Rabs (at_layer (temperatures (g_nodes g1)) i - at_layer S i) <= M) ->
        forall i, (i < length (g_nodes g))%nat ->
          Rabs (at_layer (temperatures (g_nodes g2)) i - at_layer S i) <= factor * M * exp (- (sum_list dts / relaxation)).
Proof. exact conduction_relaxes_lem. Qed.
Print Assumptions conduction_relaxes.

(** C130.  Conversely a column that a positive time step of conduction leaves as it is has the same flux through all gaps. *)
Theorem unchanged_is_rest :
  forall (c : Consts) (g : Grid) (K : list R) (dt : R),
    constants_ok c -> counted g -> conductive c (g_nodes g) -> (3 <= length (g_nodes g))%nat ->
    get_thermal_diffusivity c g = Ok K -> 0 < dt ->
    (exists N, forall fuel, (N <= fuel)%nat -> solveHeatEquation fuel c g dt = Ok g) ->
    constant_flux (heights (g_nodes g)) K (temperatures (g_nodes g)).
Proof. exact unchanged_is_rest_lem. Qed.
Print Assumptions unchanged_is_rest.

(** C130.  The time steps can always be taken: conduction over any list of them finishes. *)
Theorem conduction_continues :
  forall (c : Consts) (dts : list R) (g : Grid),
    constants_ok c -> counted g -> conductive c (g_nodes g) -> (3 <= length (g_nodes g))%nat ->
    exists g', conducted c dts g g' /\ Forall2 only_temperature (g_nodes g) (g_nodes g') /\ counted g'.
Proof. exact conduction_continues_lem. Qed.
Print Assumptions conduction_continues.

(** C130 Three layers of the same snow at 260, 265 and 270 K are at rest; with the middle one at 271 K they are not. *)
Example rest_example :
  exists (g warm : Grid) (K : list R),
    constants_ok default_constants /\ counted g /\ conductive default_constants (g_nodes g) /\ length (g_nodes g) = 3%nat /\
    get_thermal_diffusivity default_constants g = Ok K /\ get_thermal_diffusivity default_constants warm = Ok K /\
    Forall2 only_temperature (g_nodes g) (g_nodes warm) /\
    constant_flux (heights (g_nodes g)) K (temperatures (g_nodes g)) /\
    ~ constant_flux (heights (g_nodes warm)) K (temperatures (g_nodes warm)).
Proof. exact rest_example_lem. Qed.
