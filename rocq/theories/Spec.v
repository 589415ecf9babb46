(** * Specification vocabulary

    Small definitions used in the statements of the theorems.  They speak about
    columns (lists of layers, surface first) and do not use any operation of the
    model. *)
From Verif Require Import ModelPy ModelConstants ModelNode ModelGrid.

(** [total f l] = sum of [f] over all layers *)
Definition total (f : Node -> R) (l : list Node) : R :=
  fold_right (fun n acc => f n + acc) 0 l.

(** total height [m] *)
Definition column_height (l : list Node) : R := total n_height l.
(** total ice volume per area: sum of (ice fraction * height) [m] *)
Definition column_ice (l : list Node) : R := total (fun n => n_ice n * n_height n) l.
(** total liquid water: sum of (liquid water fraction * height) [m w.e.] *)
Definition column_water (l : list Node) : R := total (fun n => n_lwc n * n_height n) l.
(** height-weighted temperature sum [K m] *)
Definition column_heat (l : list Node) : R := total (fun n => n_temperature n * n_height n) l.
(** ice + water mass per area [kg m^-2] *)
Definition column_mass (c : Consts) (l : list Node) : R :=
  c_ice_density c * column_ice l + c_water_density c * column_water l.

(** nothing created, nothing lost *)
Record conserved (l l' : list Node) : Prop := {
  cons_height : column_height l' = column_height l;
  cons_ice    : column_ice l' = column_ice l;
  cons_water  : column_water l' = column_water l;
  cons_heat   : column_heat l' = column_heat l
}.

(** every layer is strictly thicker than zero *)
Definition positive_heights (l : list Node) : Prop := Forall (fun n => 0 < n_height n) l.

(** the layer counter is right *)
Definition counted (g : Grid) : Prop := g_number_nodes g = Z.of_nat (length (g_nodes g)).

(** snow: lighter than the snow/ice threshold *)
Definition is_snow (c : Consts) (n : Node) : Prop := layer_density c n < c_snow_ice_threshold c.

(** fresh-snow bookkeeping untouched *)
Definition same_clock (g g' : Grid) : Prop :=
  g_new_snow_height g' = g_new_snow_height g /\
  g_new_snow_timestamp g' = g_new_snow_timestamp g /\
  g_old_snow_timestamp g' = g_old_snow_timestamp g.

(** volumetric fractions are meaningful: no negative content, not overfull *)
Definition fractions_ok (n : Node) : Prop :=
  0 <= n_ice n /\ 0 <= n_lwc n /\ n_ice n + n_lwc n <= 1.

(** physically meaningful constants *)
Record constants_ok (c : Consts) : Prop := {
  ok_rho_w : 0 < c_water_density c;
  ok_rho_a : 0 < c_air_density c;
  ok_rho_ai : c_air_density c < c_snow_ice_threshold c;
  ok_rho_thr : c_snow_ice_threshold c < c_ice_density c;
  ok_rho_iw : c_ice_density c < c_water_density c;
  ok_Lm : 0 < c_lat_heat_melting c;
  ok_Lv : 0 < c_lat_heat_vaporize c;
  ok_Ls : 0 < c_lat_heat_sublimation c;
  ok_cpa : 0 < c_spec_heat_air c;
  ok_cpi : 0 < c_spec_heat_ice c;
  ok_cpw : c_spec_heat_ice c < c_spec_heat_water c;
  ok_ki : 0 < c_k_i c;
  ok_kw : 0 < c_k_w c;
  ok_ka : 0 < c_k_a c;
  ok_dt : 0 < c_dt c;
  ok_first : 0 < c_first_layer_height c;
  ok_stretch : 1 <= c_layer_stretching c;
  ok_minh : 0 < c_minimum_snow_layer_height c;
  ok_minsnow : 0 < c_minimum_snowfall c;
  ok_tzero : 0 < c_zero_temperature c;
  ok_sigma : 0 < c_sigma c;
  ok_emis : 0 < c_surface_emission_coeff c
}.

(** [m] is the merger of layer [a] with the layer [b] below it: height and
    contents add up, temperature is the height-weighted mean, the refreezing
    diagnostic is that of [a] *)
Definition merger (a b m : Node) : Prop :=
  n_height m = n_height a + n_height b /\
  n_ice m * n_height m = n_ice a * n_height a + n_ice b * n_height b /\
  n_lwc m * n_height m = n_lwc a * n_height a + n_lwc b * n_height b /\
  n_temperature m * n_height m
    = n_temperature a * n_height a + n_temperature b * n_height b /\
  n_refreeze m = n_refreeze a.

(** both snow or both ice *)
Definition same_class (c : Consts) (a b : Node) : Prop := is_snow c a <-> is_snow c b.

(** [m] results from [a] by successively merging the layers [l] below it; each
    of them is of the same class as the layer it is merged into, and merging goes
    on only while the layer is thinner than [h] *)
Inductive absorbs (c : Consts) (h : R) : Node -> list Node -> Node -> Prop :=
| absorbs_none a : absorbs c h a [] a
| absorbs_one a b l m1 m :
    n_height a < h -> same_class c a b -> merger a b m1 ->
    absorbs c h m1 l m -> absorbs c h a (b :: l) m.

(** the water a layer with ice fraction [f] holds against gravity, as a fraction of
    its volume (Coleou and Lesaffre, 1998) *)
Definition irreducible_content (f : R) : R :=
  if Rle_dec f 0.23 then 0.0264 + 0.0099 * ((1 - f) / f)
  else if Rle_dec f 0.812 then 0.08 - 0.1023 * (f - 0.03)
  else 0.

(** [x0] (thickness [h]) and [x1] below it are the two parts of [x]; the upper part gets
    the whole water up to the irreducible content of [x] *)
Definition parts (h : R) (x x0 x1 : Node) : Prop :=
  n_height x0 = h /\ n_height x1 = n_height x - h /\
  n_ice x0 = n_ice x /\ n_ice x1 = n_ice x /\
  n_temperature x0 = n_temperature x /\ n_temperature x1 = n_temperature x /\
  n_lwc x0 * n_height x0 + n_lwc x1 * n_height x1 = n_lwc x * n_height x /\
  n_lwc x0 * n_height x0 = Rmin (n_lwc x) (irreducible_content (n_ice x)) * n_height x /\
  n_refreeze x0 = n_refreeze x /\ n_refreeze x1 = 0.

(** strictly positive height and ice content in every layer *)
Definition column_ok (l : list Node) : Prop :=
  Forall (fun n => 0 < n_height n /\ 0 < n_ice n) l.

Definition between (x a b : R) : Prop := Rmin a b <= x <= Rmax a b.

(** weight of a layer as the model sees it: height times layer density, which
    includes the air in the pores [kg m^-2] *)
Definition layer_weight (c : Consts) (n : Node) : R := n_height n * layer_density c n.
Definition column_weight (c : Consts) (l : list Node) : R := total (layer_weight c) l.

(** water equivalent of a column: weight over water density [m w.e.] *)
Definition column_weq (c : Consts) (l : list Node) : R := column_weight c l / c_water_density c.

(** [x'] is [x] with another height, everything else equal *)
Definition only_height (x x' : Node) : Prop :=
  n_temperature x' = n_temperature x /\ n_ice x' = n_ice x /\ n_lwc x' = n_lwc x /\
  n_refreeze x' = n_refreeze x.

(** the elements of [l] whose position (counted from [i]) is not in [ids] *)
Fixpoint without_from {A : Type} (i : Z) (ids : list Z) (l : list A) : list A :=
  match l with
  | [] => []
  | x :: t => if existsb (Z.eqb i) ids then without_from (i + 1) ids t
              else x :: without_from (i + 1) ids t
  end.
Definition without {A : Type} (ids : list Z) (l : list A) : list A := without_from 0 ids l.

(** snow lies on top of ice: [s] are all snow, [i] are all ice *)
Definition snow_over_ice (c : Consts) (s i : list Node) : Prop :=
  Forall (is_snow c) s /\ Forall (fun n => ~ is_snow c n) i.

(** number of layers lighter than the threshold, wherever they are *)
Definition snowb (c : Consts) (n : Node) : bool := Rltb (layer_density c n) (c_snow_ice_threshold c).
Definition nsnow (c : Consts) (l : list Node) : nat := length (filter (snowb c) l).

(** the snow height the code works with: height of the first [nsnow] layers *)
Definition reported_snow (c : Consts) (l : list Node) : R := column_height (firstn (nsnow c l) l).

(** [x'] is [x] with another liquid water content, everything else equal *)
Definition only_lwc (x x' : Node) : Prop :=
  n_height x' = n_height x /\ n_temperature x' = n_temperature x /\ n_ice x' = n_ice x /\
  n_refreeze x' = n_refreeze x.

(** the bucket scheme: [bucket w l l' q] says that water [w] (m) poured on top of
    the layers [l] leaves the layers [l'] and the outflow [q] (m).  Every layer
    but the last keeps what it has and receives, up to its irreducible water
    content; the last layer passes everything on. *)
Inductive bucket : R -> list Node -> list Node -> R -> Prop :=
| bucket_last w x x' :
    only_lwc x x' -> n_lwc x' = 0 ->
    bucket w [x] [x'] (n_lwc x * n_height x + w)
| bucket_step w x x' y t t' e q :
    e = irreducible_content (n_ice x) -> only_lwc x x' ->
    n_lwc x' * n_height x = Rmin (n_lwc x * n_height x + w) (e * n_height x) ->
    bucket (n_lwc x * n_height x + w - n_lwc x' * n_height x) (y :: t) t' q ->
    bucket w (x :: y :: t) (x' :: t') q.

(** ice fraction at which snow reaches the density of the snow/ice threshold *)
Definition close_off (c : Consts) : R :=
  (c_snow_ice_threshold c - c_air_density c) / (c_ice_density c - c_air_density c).

(** heat capacity of ice and water in a layer, per volume [J m^-3 K^-1] *)
Definition heat_capacity (c : Consts) (n : Node) : R :=
  c_spec_heat_ice c * c_ice_density c * n_ice n + c_spec_heat_water c * c_water_density c * n_lwc n.

(** how much water (volume fraction) can freeze in a layer at or below the melting
    temperature: limited by the water present, by the pore space below close-off,
    and by the cold content of the ice *)
Definition freezable (c : Consts) (n : Node) : R :=
  Rmin (Rmin (n_lwc n) (Rmax ((close_off c - n_ice n) * (c_ice_density c / c_water_density c)) 0))
       (c_spec_heat_ice c * c_ice_density c * n_ice n * (c_zero_temperature c - n_temperature n)
        / (c_water_density c * c_lat_heat_melting c)).

(** [frozen c x x' d]: the water fraction [d] of layer [x] has frozen, giving [x'] *)
Definition frozen (c : Consts) (x x' : Node) (d : R) : Prop :=
  n_height x' = n_height x /\
  n_lwc x' = n_lwc x - d /\
  c_ice_density c * n_ice x' + c_water_density c * n_lwc x'
    = c_ice_density c * n_ice x + c_water_density c * n_lwc x /\
  heat_capacity c x' * (n_temperature x' - n_temperature x)
    = c_water_density c * c_lat_heat_melting c * d /\
  n_refreeze x' = d * n_height x /\
  d = (if Rle_dec (n_temperature x) (c_zero_temperature c) then freezable c x else 0).

(** not absurdly cold: the layer's distance from melting is smaller than the latent
    heat over the difference of the heat capacities (154 K for the shipped values) *)
Definition cold_ok (c : Consts) (n : Node) : Prop :=
  0 <= n_temperature n /\
  (c_zero_temperature c - n_temperature n) * (c_spec_heat_water c - c_spec_heat_ice c)
  < c_lat_heat_melting c.

(** ** Heat conduction *)

(** [x'] is [x] with another temperature, everything else equal *)
Definition only_temperature (x x' : Node) : Prop :=
  n_height x' = n_height x /\ n_lwc x' = n_lwc x /\ n_ice x' = n_ice x /\
  n_refreeze x' = n_refreeze x.

Definition at_layer (l : list R) (i : nat) : R := nth i l 0.

(** heat exchanged between layer [i] and layer [i+1] per time, divided by the heat
    capacity: mean diffusivity times temperature gradient between the midpoints *)
Definition conductive_flux (h K T : list R) (i : nat) : R :=
  (at_layer K i + at_layer K (i + 1)) / 2
  * ((at_layer T (i + 1) - at_layer T i) / ((at_layer h i + at_layer h (i + 1)) / 2)).

(** distance between the midpoints of the two gaps around layer [i] *)
Definition control_length (h : list R) (i : nat) : R :=
  (at_layer h (i - 1) + 2 * at_layer h i + at_layer h (i + 1)) / 4.

(** one explicit step of length [tau] of the discrete heat equation with fixed
    temperatures in the first and the last layer *)
Definition heat_advance (h K : list R) (tau : R) (T T' : list R) : Prop :=
  length T' = length T /\
  at_layer T' 0 = at_layer T 0 /\
  at_layer T' (length T - 1) = at_layer T (length T - 1) /\
  forall i, (1 <= i <= length T - 2)%nat ->
    control_length h i * (at_layer T' i - at_layer T i)
    = tau * (conductive_flux h K T i - conductive_flux h K T (i - 1)).

(** successive steps *)
Inductive heat_steps (h K : list R) : list R -> list R -> list R -> Prop :=
| heat_done T : heat_steps h K [] T T
| heat_more tau taus T T1 T2 :
    heat_advance h K tau T T1 -> heat_steps h K taus T1 T2 ->
    heat_steps h K (tau :: taus) T T2.

(** no step longer than 0.8 times the stability limit of the explicit scheme *)
Definition stable_step (h K : list R) (tau : R) : Prop :=
  forall i, (i + 1 < length h)%nat ->
    tau * (at_layer K i + at_layer K (i + 1)) / 2
    <= 0.8 * (((at_layer h i + at_layer h (i + 1)) / 2) ^ 2 / 2).

(** all layers can conduct heat: ice present, no negative water, a known
    conductivity method *)
Definition conductive (c : Consts) (l : list Node) : Prop :=
  Forall (fun n => 0 < n_height n /\ 0 < n_ice n /\ 0 <= n_lwc n) l /\
  (c_thermal_conductivity_method c = "bulk"%string \/
   c_thermal_conductivity_method c = "empirical"%string).

(** the column's heights and temperatures as arrays *)
Definition heights (l : list Node) : list R := map n_height l.
Definition temperatures (l : list Node) : list R := map n_temperature l.

(** f 0 + ... + f (n-1) *)
Fixpoint sum_upto (f : nat -> R) (n : nat) : R :=
  match n with O => 0 | S k => sum_upto f k + f k end.

(** ** Compaction of snow *)

(** go through a list of layers from the top, each step seeing the layer above
    (as it was before) and an accumulated value *)
Inductive swept {A : Type} (step : option Node -> A -> Node -> Node -> A -> Prop)
  : option Node -> A -> list Node -> list Node -> A -> Prop :=
| swept_nil p a : swept step p a [] [] a
| swept_cons p a x x' a1 t t' a2 :
    step p a x x' a1 -> swept step (Some x) a1 t t' a2 ->
    swept step p a (x :: t) (x' :: t') a2.

(** [x'] is [x] with ice and water fraction scaled up and the height scaled down *)
Definition squeezed (di dw dh : R) (x x' : Node) : Prop :=
  n_ice x' = (1 + di) * n_ice x /\ n_lwc x' = (1 + dw) * n_lwc x /\
  n_height x' = (1 - dh) * n_height x /\
  n_temperature x' = n_temperature x /\ n_refreeze x' = n_refreeze x.

(** layers that are compacted: snow thicker than the minimum *)
Definition compactable (c : Consts) (x : Node) : Prop :=
  is_snow c x /\ c_minimum_snow_layer_height c < n_height x.

(** what the code adds to the load when it reaches a layer: the weight of the layer
    above, or half the layer's own weight at the surface *)
Definition added_load (c : Consts) (above : option Node) (x : Node) : R :=
  match above with
  | Some y => layer_weight c y
  | None => layer_weight c x / 2
  end.

(** Boone/Essery: relative rate of compaction of layer [x] under the load [M] [1/s] *)
Definition boone_rate (c : Consts) (M : R) (x : Node) : R :=
  M * 9.81 / (3.7e7 * exp (0.081 * (c_zero_temperature c - n_temperature x) + 0.018 * layer_density c x))
  + 2.8e-6 * exp (- 0.042 * (c_zero_temperature c - n_temperature x)
                  - 0.046 * Rmax 0 (layer_density c x - 150)).

(** one layer in the Boone scheme; [d] is the relative compaction *)
Definition boone_step (c : Consts) (dt : R) (above : option Node) (M : R) (x x' : Node) (M' : R) : Prop :=
  (compactable c x /\ M' = M + added_load c above x /\
   exists d, d = boone_rate c M' x * dt /\
     (n_lwc x = 0 -> squeezed d 0 d x x') /\
     (n_lwc x <> 0 -> squeezed (d / 2) (d / 2) d x x'))
  \/ (~ compactable c x /\ M' = M /\ x' = x).

(** Vionnet: relative rate of compaction under the stress [s] *)
Definition vionnet_rate (c : Consts) (s : R) (x : Node) : R :=
  s / (7.62237e6 / (1 + 60 * (n_lwc x / n_height x)) * (layer_density c x / 250)
       * exp (0.1 * (273.14 - n_temperature x) + 0.023 * layer_density c x)).

Definition vionnet_step (c : Consts) (slope dt : R) (above : option Node) (s : R) (x x' : Node) (s' : R)
  : Prop :=
  (compactable c x /\ s' = s + 9.81 * cos slope * added_load c above x /\
   exists d, d = vionnet_rate c s' x * dt /\
     (n_lwc x = 0 -> squeezed d 0 d x x') /\
     (n_lwc x <> 0 -> squeezed (d / 2) (d / 2) d x x'))
  \/ (~ compactable c x /\ s' = s /\ x' = x).

(** one layer in the empirical scheme *)
Definition empirical_step (c : Consts) (dt : R) (x x' : Node) : Prop :=
  (layer_density c x < 600 /\
   n_ice x' = (600 - (600 - layer_density c x) * exp (- dt / 8.0e5)) / c_ice_density c /\
   n_height x' = (1 - (600 - layer_density c x) * dt / 8.0e5 / layer_density c x') * n_height x /\
   n_lwc x' = n_lwc x /\ n_temperature x' = n_temperature x /\ n_refreeze x' = n_refreeze x)
  \/ (600 <= layer_density c x /\ x' = x).

(** strictly positive height and ice content, no negative water content *)
Definition layers_ok (l : list Node) : Prop :=
  Forall (fun n => 0 < n_height n /\ 0 < n_ice n /\ 0 <= n_lwc n) l.

(** ice and water mass of one layer, without the air [kg m^-2] *)
Definition layer_mass (c : Consts) (n : Node) : R :=
  (c_ice_density c * n_ice n + c_water_density c * n_lwc n) * n_height n.

(** ** Penetrating radiation *)

(** temperature a layer reaches when it absorbs the flux [e] for the time [dt] *)
Definition heated (c : Consts) (dt e : R) (x : Node) : R :=
  n_temperature x + e * dt / (layer_density c x * c_spec_heat_ice c * n_height x).

(** share of the layer's ice that the surplus above melting temperature would melt *)
Definition melted_share (c : Consts) (dt e : R) (x : Node) : R :=
  c_spec_heat_ice c * (heated c dt e x - c_zero_temperature c) / c_lat_heat_melting c.

(** one layer: either it only warms, or it melts partly, or it is lost *)
Inductive sunlit (c : Consts) (dt e : R) (x : Node) : list Node -> R -> Prop :=
| sunlit_warm : heated c dt e x <= c_zero_temperature c ->
    sunlit c dt e x [mkNode (n_height x) (heated c dt e x) (n_lwc x) (n_ice x) (n_refreeze x)] 0
| sunlit_melt s x' : c_zero_temperature c < heated c dt e x -> s = melted_share c dt e x -> s < 1 ->
    n_temperature x' = c_zero_temperature c -> n_height x' = (1 - s) * n_height x ->
    n_ice x' = n_ice x -> n_refreeze x' = n_refreeze x ->
    n_lwc x' * n_height x' = n_lwc x * n_height x + s * n_ice x * n_height x * c_ice_density c / c_water_density c ->
    sunlit c dt e x [x'] ((1 - s) * (s * n_ice x * n_height x * c_ice_density c / c_water_density c))
| sunlit_lost s : c_zero_temperature c < heated c dt e x -> s = melted_share c dt e x -> 1 <= s ->
    sunlit c dt e x [] (s * n_ice x * n_height x * c_ice_density c / c_water_density c).

(** all layers that are looked at; the last component is the reported melt *)
Inductive sunlit_column (c : Consts) (dt : R) : list R -> list Node -> list Node -> R -> Prop :=
| sunlit_nil : sunlit_column c dt [] [] [] 0
| sunlit_cons e es x l y l' m m' : sunlit c dt e x y m -> sunlit_column c dt es l l' m' ->
    sunlit_column c dt (e :: es) (x :: l) (y ++ l') (m + m').

(** the extinction coefficient and the penetrating share *)
Definition extinction (c : Consts) (top : Node) : R :=
  if Rle_dec (layer_density c top) (c_snow_ice_threshold c) then 17.1 else 2.5.
Definition penetrating_share (c : Consts) (top : Node) : R :=
  if Rle_dec (layer_density c top) (c_snow_ice_threshold c) then 0.1 else 0.2.

(** depth of the centre of layer [i] *)
Definition centre_depth (l : list Node) (i : nat) : R :=
  match nth_error l i with
  | Some x => column_height (firstn i l) + n_height x / 2
  | None => 0
  end.

(** share of the penetrating radiation given to layer [i]: what is absorbed between the
    centre of the layer above (or the surface) and its own centre *)
Definition absorbed_share (k : R) (l : list Node) (i : nat) : R :=
  exp (- (k * match i with O => 0 | S j => centre_depth l j end)) - exp (- (k * centre_depth l i)).

(** ** Albedo and roughness *)

(** meaningful albedo and roughness constants *)
Record surface_constants_ok (c : Consts) : Prop := {
  ok_alb_order : 0 <= c_albedo_ice c <= c_albedo_firn c;
  ok_alb_firn : c_albedo_firn c <= c_albedo_fresh_snow c <= 1;
  ok_alb_aging : 0 < c_albedo_mod_snow_aging c;
  ok_alb_depth : 0 < c_albedo_mod_snow_depth c;
  ok_rough : 0 < c_roughness_fresh_snow c <= c_roughness_firn c;
  ok_rough_ice : 0 < c_roughness_ice c;
  ok_rough_age : 0 <= c_aging_factor_roughness c
}.

(** albedo of snow of depth [h] and age [hours] after Oerlemans and Knap *)
Definition snow_albedo_formula (c : Consts) (hours h : R) : R :=
  let a := c_albedo_firn c
           + (c_albedo_fresh_snow c - c_albedo_firn c) * exp (- hours / (24 * c_albedo_mod_snow_aging c)) in
  a + (c_albedo_ice c - a) * exp (- (100 * h / c_albedo_mod_snow_depth c)).

(** age in hours of the snow that counts for the albedo: the fresh snow's or, if this is
    gone and still young, the snow below it *)
Definition albedo_age (c : Consts) (g : Grid) : R :=
  if Rlt_dec (g_new_snow_timestamp g / 3600) (c_albedo_mod_snow_aging c * 24)
  then if Rle_dec (g_new_snow_height g) 0 then g_old_snow_timestamp g / 3600
       else g_new_snow_timestamp g / 3600
  else g_new_snow_timestamp g / 3600.

(** ** Root finding *)

(** where the chord through two points of the graph of [f] meets zero *)
Definition chord_root (f : R -> R) (a b : R) : R := b - f b * (b - a) / (f b - f a).

(** ** Surface fluxes *)

(** saturation vapour pressure in hPa after Sonntag *)
Definition sonntag (T : R) : R :=
  if Rle_dec 273.16 T then 6.112 * exp (17.67 * (T - 273.16) / (T - 29.66))
  else 6.112 * exp (22.46 * (T - 273.16) / (T - 0.55)).

(** a real root of degree eight of a non-negative number *)
Definition eighth_root (x : R) : R := if Rlt_dec 0 x then Rpower x (1 / 8) else 0.

(** emissivity of a sky with cloud cover [N], air temperature [T2] and relative humidity
    [rH2] in per cent (Konzelmann) *)
Definition sky_emissivity (T2 rH2 N : R) : R :=
  (0.23 + 0.433 * eighth_root (rH2 * sonntag T2 / T2)) * (1 - N ^ 2) + 0.984 * N ^ 2.

(** mixing ratio of air of pressure [p] with saturation pressure [e] and relative humidity *)
Definition mixing_ratio (rH e p : R) : R := rH / 100 * (0.622 * (e / (p - e))).

(** bulk Richardson number; 0 without wind *)
Definition richardson (z T0 T2 u : R) : R :=
  if Req_EM_T u 0 then 0 else 9.81 * (T2 - T0) * z / (T2 * u ^ 2).

(** damping of the turbulent exchange in stable air *)
Definition stability_factor (Ri : R) : R :=
  if Rle_dec Ri 0.01 then 1 else if Rle_dec Ri 0.2 then (1 - 5 * Ri) ^ 2 else 0.

(** bulk transfer coefficient for roughness lengths [z0] (momentum) and [zx] *)
Definition bulk_transfer (z z0 zx : R) : R := 0.41 ^ 2 / (ln (z / z0) * ln (z / zx)).
