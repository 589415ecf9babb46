(** * Penetrating radiation in portions (C131)

    Theorems only; the proofs are in LemFinPenetrate.v and the files it uses. *)

From Verif Require Import ModelPy ModelConstants ModelNode ModelGrid ModelRadiation Spec.
From Verif Require Import LemFinPenetrate.

(** C131.  The effect of the penetrating radiation depends only on the radiation per area, net radiation times time: the same amount in a shorter time gives the same column and the same reported melt. *)
Theorem radiation_amount :
  forall (c : Consts) (g g1 g2 : Grid) (SW1 dt1 SW2 dt2 melt1 Si1 melt2 Si2 : R),
    constants_ok c -> counted g -> layers_ok (g_nodes g) -> g_nodes g <> [] ->
    SW1 * dt1 = SW2 * dt2 ->
    method_Bintanja c g SW1 dt1 = Ok (g1, melt1, Si1) -> method_Bintanja c g SW2 dt2 = Ok (g2, melt2, Si2) ->
    g1 = g2 /\ melt1 = melt2.
Proof. exact radiation_amount_lem. Qed.
Print Assumptions radiation_amount.

(** C131.  Radiation that melts nothing may be given in portions: if the column reports no melt for the whole, then the parts, one after the other, report none either and leave the same column, and what penetrates adds up. *)
Theorem radiation_in_portions :
  forall (c : Consts) (g g' : Grid) (first second dt Si : R),
    constants_ok c -> counted g -> layers_ok (g_nodes g) -> g_nodes g <> [] ->
    0 <= first -> 0 <= second -> 0 <= dt ->
    method_Bintanja c g (first + second) dt = Ok (g', 0, Si) ->
    exists g1 Si1 Si2, method_Bintanja c g first dt = Ok (g1, 0, Si1) /\
      method_Bintanja c g1 second dt = Ok (g', 0, Si2) /\ Si1 + Si2 = Si.
Proof. exact radiation_in_portions_lem. Qed.
Print Assumptions radiation_in_portions.

(** C131 Two layers ten degrees below the melting point under weak radiation report no melt. *)
Example portions_example :
  exists (g g' : Grid) (Si : R),
    constants_ok default_constants /\ counted g /\ layers_ok (g_nodes g) /\ g_nodes g <> [] /\
    method_Bintanja default_constants g (1 + 1) 1 = Ok (g', 0, Si) /\ 0 < Si.
Proof. exact portions_example_lem. Qed.
