(** * Properties of one layer *)
From Verif Require Import ModelPy ModelConstants ModelNode ModelGrid.
From Verif Require Import LemPy LemGridBase.

Lemma full_air n : 0 <= n_ice n -> 0 <= n_lwc n -> n_ice n + n_lwc n <= 1 -> layer_air_porosity n = 1 - n_ice n - n_lwc n.
Proof. intros A B C. unfold layer_air_porosity. rewrite Rmax_right; lra. Qed.

(*@ C88 Density, specific heat and bulk conductivity of a layer lie between the smallest and largest value of ice, water and air. *)
Lemma layer_mixture_lem :
  forall (c : Consts) (n : Node) lo hi,
    0 <= n_ice n -> 0 <= n_lwc n -> n_ice n + n_lwc n <= 1 ->
    (lo <= c_ice_density c <= hi -> lo <= c_water_density c <= hi -> lo <= c_air_density c <= hi -> lo <= layer_density c n <= hi) /\
    (lo <= c_spec_heat_ice c <= hi -> lo <= c_spec_heat_water c <= hi -> lo <= c_spec_heat_air c <= hi -> lo <= layer_specific_heat c n <= hi) /\
    (c_thermal_conductivity_method c = "bulk"%string ->
     lo <= c_k_i c <= hi -> lo <= c_k_w c <= hi -> lo <= c_k_a c <= hi ->
     exists k, layer_thermal_conductivity c n = Ok k /\ lo <= k <= hi).
Proof.
  intros c n lo hi A B C. pose proof (full_air n A B C) as P.
  assert (M : forall a b d, lo <= a <= hi -> lo <= b <= hi -> lo <= d <= hi ->
    lo <= n_ice n * a + n_lwc n * b + (1 - n_ice n - n_lwc n) * d <= hi) by (intros a b d; generalize (n_ice n) (n_lwc n) A B C; intros; nra).
  unfold layer_density, layer_specific_heat, layer_thermal_conductivity. rewrite P. split; [|split].
  - intros X Y Z. apply M; auto.
  - intros X Y Z. specialize (M _ _ _ X Y Z). lra.
  - intros ME X Y Z. rewrite ME. cbn [String.eqb Ascii.eqb Bool.eqb]. eexists. split; [reflexivity|]. specialize (M _ _ _ X Y Z). lra.
Qed.

(*@ C88 They are the volume-weighted means of ice, water and air; the empirical conductivity is 0.021 + 2.5 (density/1000)^2. *)
Lemma layer_mixture_formula_lem :
  forall (c : Consts) (n : Node),
    0 <= n_ice n -> 0 <= n_lwc n -> n_ice n + n_lwc n <= 1 ->
    layer_density c n = n_ice n * c_ice_density c + n_lwc n * c_water_density c + (1 - n_ice n - n_lwc n) * c_air_density c /\
    layer_specific_heat c n = n_ice n * c_spec_heat_ice c + n_lwc n * c_spec_heat_water c + (1 - n_ice n - n_lwc n) * c_spec_heat_air c /\
    (c_thermal_conductivity_method c = "bulk"%string ->
     layer_thermal_conductivity c n = Ok (n_ice n * c_k_i c + n_lwc n * c_k_w c + (1 - n_ice n - n_lwc n) * c_k_a c)) /\
    (c_thermal_conductivity_method c = "empirical"%string ->
     layer_thermal_conductivity c n = Ok (0.021 + 2.5 * (layer_density c n / 1000) ^ 2)).
Proof.
  intros c n A B C. pose proof (full_air n A B C) as P.
  unfold layer_density, layer_specific_heat, layer_thermal_conductivity. rewrite P. split; [ring|]. split; [ring|].
  split; intros ->; cbn [String.eqb Ascii.eqb Bool.eqb]; f_equal; unfold layer_density; rewrite ?P; try ring.
Qed.

(*@ C88 A layer that is more than full holds no air. *)
Lemma overfull_layer_lem :
  forall (c : Consts) (n : Node),
    1 <= n_ice n + n_lwc n ->
    layer_density c n = n_ice n * c_ice_density c + n_lwc n * c_water_density c /\
    layer_specific_heat c n = n_ice n * c_spec_heat_ice c + n_lwc n * c_spec_heat_water c.
Proof.
  intros c n H. assert (P : layer_air_porosity n = 0) by (unfold layer_air_porosity; rewrite Rmax_left; lra).
  unfold layer_density, layer_specific_heat. rewrite P. split; ring.
Qed.

(*@ C88 The thermal diffusivity is conductivity over heat capacity per volume, and positive. *)
Lemma layer_diffusivity_lem :
  forall (c : Consts) (n : Node),
    0 <= n_ice n -> 0 <= n_lwc n -> n_ice n + n_lwc n <= 1 ->
    0 < c_ice_density c -> 0 < c_water_density c -> 0 < c_air_density c ->
    0 < c_spec_heat_ice c -> 0 < c_spec_heat_water c -> 0 < c_spec_heat_air c ->
    0 < c_k_i c -> 0 < c_k_w c -> 0 < c_k_a c ->
    (c_thermal_conductivity_method c = "bulk"%string \/ c_thermal_conductivity_method c = "empirical"%string) ->
    exists k d, layer_thermal_conductivity c n = Ok k /\ 0 < k /\
      layer_thermal_diffusivity c n = Ok d /\ 0 < d /\ d * (layer_density c n * layer_specific_heat c n) = k.
Proof.
  intros c n A B C I1 I2 I3 S1 S2 S3 K1 K2 K3 ME. pose proof (full_air n A B C) as P.
  assert (M : forall a b d, 0 < a -> 0 < b -> 0 < d -> 0 < n_ice n * a + n_lwc n * b + (1 - n_ice n - n_lwc n) * d).
  { intros a b d Ha Hb Hd. destruct (Rle_lt_or_eq_dec _ _ A) as [X|X]; [|destruct (Rle_lt_or_eq_dec _ _ B) as [Y|Y]].
    - assert (0 < n_ice n * a) by (apply Rmult_lt_0_compat; auto). assert (0 <= n_lwc n * b) by (apply Rmult_le_pos; lra).
      assert (0 <= (1 - n_ice n - n_lwc n) * d) by (apply Rmult_le_pos; lra). lra.
    - assert (0 <= n_ice n * a) by (apply Rmult_le_pos; lra). assert (0 < n_lwc n * b) by (apply Rmult_lt_0_compat; auto).
      assert (0 <= (1 - n_ice n - n_lwc n) * d) by (apply Rmult_le_pos; lra). lra.
    - rewrite <- X, <- Y. lra. }
  assert (D : 0 < layer_density c n) by (unfold layer_density; rewrite P; apply M; auto).
  assert (E : 0 < layer_specific_heat c n) by (unfold layer_specific_heat; rewrite P; specialize (M _ _ _ S1 S2 S3); lra).
  assert (exists k, layer_thermal_conductivity c n = Ok k /\ 0 < k) as (k & EK & KP).
  { unfold layer_thermal_conductivity. destruct ME as [-> | ->]; cbn [String.eqb Ascii.eqb Bool.eqb]; eexists; (split; [reflexivity|]).
    - rewrite P. specialize (M _ _ _ K1 K2 K3). lra.
    - pose proof (pow2_ge_0 (layer_density c n / 1000)). lra. }
  assert (Q : 0 < layer_density c n * layer_specific_heat c n) by (apply Rmult_lt_0_compat; auto).
  exists k, (k / (layer_density c n * layer_specific_heat c n)). split; [exact EK|]. split; [exact KP|].
  split; [|split; [apply Rdiv_lt_0_compat; auto|field; lra]]. unfold layer_thermal_diffusivity. rewrite EK. cbn [bind]. unfold fdiv.
  destruct (Req_EM_T (layer_density c n * layer_specific_heat c n) 0); [lra|reflexivity].
Qed.

(*@ C88 The cold content of a layer is the heat per area that brings it to the melting point: specific heat times mass times the distance to the melting point, positive exactly for layers below it.  The reported profile has one value per layer from the top. *)
Lemma cold_content_lem :
  forall (c : Consts) (n : Node),
    0 <= n_ice n -> 0 <= n_lwc n -> n_ice n + n_lwc n <= 1 ->
    layer_cold_content c n =
      (n_ice n * c_spec_heat_ice c + n_lwc n * c_spec_heat_water c + (1 - n_ice n - n_lwc n) * c_spec_heat_air c) *
      ((n_ice n * c_ice_density c + n_lwc n * c_water_density c + (1 - n_ice n - n_lwc n) * c_air_density c) * n_height n) *
      (c_zero_temperature c - n_temperature n) /\
    (0 < layer_specific_heat c n -> 0 < layer_density c n -> 0 < n_height n ->
       (0 < layer_cold_content c n <-> n_temperature n < c_zero_temperature c) /\
       (layer_cold_content c n = 0 <-> n_temperature n = c_zero_temperature c)).
Proof.
  intros c n A B C. pose proof (full_air n A B C) as P. split.
  - unfold layer_cold_content, layer_specific_heat, layer_density. rewrite P. ring.
  - intros E D H. unfold layer_cold_content. assert (Q : 0 < layer_specific_heat c n * layer_density c n * n_height n) by (repeat apply Rmult_lt_0_compat; auto).
    replace (- layer_specific_heat c n * layer_density c n * n_height n * (n_temperature n - c_zero_temperature c))
      with (layer_specific_heat c n * layer_density c n * n_height n * (c_zero_temperature c - n_temperature n)) by ring.
    revert Q. generalize (layer_specific_heat c n * layer_density c n * n_height n) as r. generalize (n_temperature n) (c_zero_temperature c). clear.
    intros t z r Q. split; split; intros H.
    + destruct (Rlt_dec t z); [assumption|]. exfalso. assert (0 <= r * (t - z)) by (apply Rmult_le_pos; lra). lra.
    + apply Rmult_lt_0_compat; lra.
    + apply Rmult_integral in H. lra.
    + subst. ring.
Qed.

(*@ C88 Profiles have one entry per layer, from the surface down. *)
Lemma cold_content_profile_lem :
  forall (c : Consts) (g : Grid),
    g_number_nodes g = Z.of_nat (length (g_nodes g)) ->
    get_cold_content c g = Ok (map (layer_cold_content c) (g_nodes g)) /\
    get_density c g = Ok (map (layer_density c) (g_nodes g)) /\
    get_porosity g = Ok (map (fun n => 1 - n_ice n - n_lwc n) (g_nodes g)) /\
    get_specific_heat c g = Ok (map (layer_specific_heat c) (g_nodes g)).
Proof.
  intros c g H. repeat split; [apply (get_profile_map (layer_cold_content c))|apply (get_profile_map (layer_density c))|apply (get_profile_map layer_porosity)|apply (get_profile_map (layer_specific_heat c))]; exact H.
Qed.

(*@ C89 The irreducible water content exists for every layer with ice, is not negative, and does not grow with the ice fraction. *)
Lemma irreducible_decreases_lem :
  forall a b : Node, 0 < n_ice a -> n_ice a <= n_ice b -> n_ice b <= 1 ->
    exists wa wb, layer_irreducible a = Ok wa /\ layer_irreducible b = Ok wb /\ 0 <= wb <= wa /\
      (n_ice a <= 0.812 -> 0 < wa).
Proof.
  intros [h t w i r] [h' t' w' j r']. cbn [n_ice]. intros A AB B.
  assert (Q : forall i, 0 < i -> (1 - i) / i = / i - 1) by (intros; field; lra).
  unfold layer_irreducible. cbn [n_ice]. unfold Rleb, Rltb, fdiv.
  assert (I : forall x, 0 < x -> x <= 0.23 -> / 0.23 <= / x) by (intros; apply Rinv_le_contravar; lra).
  assert (J : / 0.23 > 4.347826) by (replace (/ 0.23) with (100 / 23) by lra; lra).
  assert (L : / j <= / i) by (apply Rinv_le_contravar; lra).
  destruct (Rle_dec i 0.23), (Rle_dec j 0.23); try (exfalso; lra).
  - destruct (Req_EM_T i 0); [lra|]. destruct (Req_EM_T j 0); [lra|]. cbn [bind]. rewrite !Q by lra. do 2 eexists. split; [reflexivity|]. split; [reflexivity|].
    pose proof (I i ltac:(lra) ltac:(lra)). pose proof (I j ltac:(lra) ltac:(lra)). split; [lra|intros; lra].
  - destruct (Req_EM_T i 0); [lra|]. cbn [bind]. rewrite Q by lra. pose proof (I i ltac:(lra) ltac:(lra)).
    destruct (Rlt_dec 0.23 j); [|exfalso; lra]. destruct (Rle_dec j 0.812); cbn [andb]; do 2 eexists; (split; [reflexivity|]; split; [reflexivity|]); split; try (intros; lra); lra.
  - destruct (Rlt_dec 0.23 i); [|exfalso; lra]. destruct (Rlt_dec 0.23 j); [|exfalso; lra].
    destruct (Rle_dec i 0.812), (Rle_dec j 0.812); cbn [andb]; do 2 eexists; (split; [reflexivity|]; split; [reflexivity|]); split; try (intros; lra); lra.
Qed.

(*@ C89 A layer without ice stops the simulation as soon as its irreducible water content is needed. *)
Lemma irreducible_without_ice_lem :
  forall n : Node, n_ice n = 0 -> layer_irreducible n = Err ZeroDivisionError.
Proof.
  intros n E. unfold layer_irreducible. rewrite E. unfold Rleb. destruct (Rle_dec 0 0.23); [|lra]. unfold fdiv. destruct (Req_EM_T 0 0); [reflexivity|congruence].
Qed.

(*@ex A snow layer of 300 kg/m3, 0.1 m thick and 5 K below melting has a positive cold content. *)
Lemma cold_content_example_lem :
  0 < layer_cold_content default_constants (new_node default_constants 0.1 300 (273.16 - 5) 0 None).
Proof.
  set (n := new_node _ _ _ _ _ _).
  assert (I : 0.3 < n_ice n < 0.33) by (cbn; lra). assert (W : n_lwc n = 0) by reflexivity.
  assert (P : layer_air_porosity n = 1 - n_ice n) by (rewrite full_air; rewrite ?W; lra).
  apply cold_content_lem; rewrite ?W; try lra.
  - unfold layer_specific_heat. rewrite P, W. cbn [c_spec_heat_ice c_spec_heat_air c_spec_heat_water default_constants]. nra.
  - unfold layer_density. rewrite P, W. cbn [c_ice_density c_air_density c_water_density default_constants]. nra.
  - cbn. lra.
  - cbn. lra.
Qed.
