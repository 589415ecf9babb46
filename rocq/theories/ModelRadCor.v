(** * Terrain corrections of solar radiation (cosipy/modules/radCor.py)

    Used by aws2cosipy.py.  Rasters are lists of rows.  Entries that numpy would turn into NaN or
    infinity are [None] in rasters and [Err NotReal] in scalar code.  Arrays are taken to be arrays of
    floats. *)
From Coq Require Export Ratan.
From Verif Require Import ModelPy ModelConstants ModelNode ModelGrid ModelHeat ModelSurface ModelInit.

(** ** Functions of the math module that raise *)
(** [math.asin], [math.acos]: "math domain error" *)
Definition py_asin (x : R) : res R :=
  if Rle_dec (Rabs x) 1 then Ok (asin x) else Err ValueError.
Definition py_acos (x : R) : res R :=
  if Rle_dec (Rabs x) 1 then Ok (acos x) else Err ValueError.
(** [math.radians], [np.degrees] *)
Definition radians (x : R) : R := x * PI / 180.
Definition degrees (x : R) : R := x * 180 / PI.
(** [x ** 0.5]: a negative base gives a complex number, which math.asin rejects *)
Definition py_root (x : R) : res R := if Rle_dec 0 x then Ok (sqrt x) else Err TypeError.
(** [np.round], [round]: half to even *)
Definition py_round (x : R) : Z :=
  let f := Int_part x in
  let d := x - IZR f in
  if Rlt_dec d (1/2) then f else if Rlt_dec (1/2) d then (f + 1)%Z
  else if Z.even f then f else (f + 1)%Z.
(** [max(l)], [np.max(l)] *)
Definition py_max (l : list R) : res R :=
  match l with [] => Err ValueError | x :: t => Ok (fold_left Rmax t x) end.
(** [np.linspace(a, b, n)] *)
Definition linspace (a b : R) (n : Z) : res (list R) :=
  if (n <? 0)%Z then Err ValueError
  else Ok (map (fun i => a + IZR i * ((b - a) / IZR (n - 1))) (zrange 0 n)).

(** ** Rasters *)
Definition raster (A : Type) := list (list A).
(** [a[y, x]] *)
Definition raster_get {A : Type} (a : raster A) (y x : Z) : res A :=
  row <- py_get a y ;; py_get row x.
(** [a[y, x] = v] *)
Definition raster_set {A : Type} (a : raster A) (y x : Z) (v : A) : res (raster A) :=
  row <- py_get a y ;; row' <- py_update row x (fun _ => v) ;; py_update a y (fun _ => row').
(** elementwise operation on an array; other arrays are read at the same position *)
Fixpoint mapi_res {A B : Type} (i : Z) (f : Z -> A -> res B) (l : list A) : res (list B) :=
  match l with
  | [] => Ok []
  | x :: t => y <- f i x ;; ys <- mapi_res (i + 1)%Z f t ;; Ok (y :: ys)
  end.
Definition raster_map {A B : Type} (f : Z -> Z -> A -> res B) (a : raster A) : res (raster B) :=
  mapi_res 0 (fun y row => mapi_res 0 (fun x v => f y x v) row) a.
(** [m == v] *)
Definition num_eqb (m : number) (v : R) : bool :=
  match m with Some x => Reqb x v | None => false end.

(** ** Wohlfahrt et al. (2016) *)

(** radCor.py:9-63 *)
Definition solarFParallel (lat lon timezone_lon day hour : R) : res (R * R * R) :=
  let FAC := PI / 180 in
  dec <- py_asin (0.39785 * sin ((278.97 + 0.9856 * day
                                  + 1.9165 * sin ((356.6 + 0.9856 * day) * FAC)) * FAC)) ;;
  let teta := (279.575 + 0.9856 * day) * FAC in
  let timeEq := (- 104.7 * sin teta + 596.2 * sin (2 * teta) + 4.3 * sin (3 * teta)
                 - 12.7 * sin (4 * teta) - 429.3 * cos teta - 2 * cos (2 * teta)
                 + 19.3 * cos (3 * teta)) / 3600 in
  let LC := (timezone_lon - lon) / 15 in
  let solarnoon := 12 - LC - timeEq in
  let solartime := hour - LC - timeEq in
  beta <- py_asin (sin (lat * FAC) * sin dec
                   + cos (lat * FAC) * cos dec * cos (15 * FAC * (solartime - solarnoon))) ;;
  let zeni := PI / 2 - beta in
  q <- py_acos (sin (lat * FAC) * cos zeni - sin dec) ;;
  q <- fdiv q (cos (lat * FAC)) ;;
  let azi := q * sin zeni in
  let azi := if Rltb solartime solarnoon then azi * - (1) else azi in
  Ok (beta, zeni, azi).

(** radCor.py:66-101.  The quotient [Rg / So] may be a numpy division; radCor2D then fails all the
    same in its own division by [cos zeni]. *)
Definition Fdif_Neustift (doy zeni Rg : R) : res R :=
  let So := 1367 * (1 + 0.033 * cos (2 * PI * doy / 366)) * cos zeni in
  CI <- fdiv Rg So ;;
  let p1 := 0.1001 in
  let p2 := 4.7930 in
  let p3 := 9.4758 in
  let p4 := 0.2465 in
  Ok (if Rltb 50 CI then p4 else exp (- exp (p1 - (p2 - p3 * CI))) * (1 - p4) + p4).

(** radCor.py:104-156 *)
Definition radCor2D (doy zeni azi angslo azislo Rm zeni_thld : R) : res R :=
  let FAC := PI / 180 in
  Fdif <- Fdif_Neustift doy zeni Rm ;;
  let Fdif := if Rltb (radians zeni_thld) zeni then 1 else Fdif in
  let Rb := Rm * (1 - Fdif) in
  let Rd := Rm * Fdif in
  cf <- fdiv (cos zeni * cos (angslo * FAC) + sin zeni * sin (angslo * FAC) * cos (azi - azislo * FAC))
             (cos zeni) ;;
  Ok (Rb * cf + Rd).

(** radCor.py:159-164 *)
Definition correctRadiation (lat lon timezone_lon doy hour angslo azislo Rm zeni_thld : R) : res R :=
  s <- solarFParallel lat lon timezone_lon doy hour ;;
  let '(beta, zeni, azi) := s in
  radCor2D doy zeni azi angslo azislo Rm zeni_thld.

(** ** Moelg et al. (2009) *)

(** radCor.py:200-206, one row of timecorr *)
Definition timecorr_row (j : Z) : list R :=
  let x := 0.9856 * (IZR j + 1) - 2.72 in
  let T2 := - 7.66 * sin (radians x)
            - 9.87 * sin (2 * radians x + radians 24.99 + radians 3.83 * sin (radians x)) in
  [IZR j + 1; x; T2; T2 * 15 / 60].

(** radCor.py:209-216, one row of solparam *)
Definition solparam_row (lat : R) (j : Z) : res (list R) :=
  let tau := 2 * PI * IZR j / 365 in
  let ecc := 1.00011 + 0.034221 * cos tau + 0.00128 * sin tau + 0.000719 * cos (2 * tau)
             + 0.000077 * sin (2 * tau) in
  let dec := 0.006918 - 0.399912 * cos tau + 0.070257 * sin tau - 0.006758 * cos (2 * tau)
             + 0.000907 * sin (2 * tau) - 0.002697 * cos (3 * tau) + 0.00148 * sin (3 * tau) in
  h <- py_acos (- tan (lat * PI / 180) * tan dec) ;;
  let h := h * 180 / PI in
  Ok [tau; tau * 180 / PI; ecc; dec; dec * 180 / PI; h; 2 / 15 * h].

(** radCor.py:168-222 *)
Definition solpars (lat : R) : res (raster R * raster R) :=
  rows <- map_res (solparam_row lat) (zrange 0 365) ;;
  let times := map timecorr_row (zrange 0 365) in
  last <- py_get rows 364 ;;
  tlast <- py_get times 364 ;;
  Ok (rows ++ [last], times ++ [tlast]).

(** radCor.py:225-236 *)
Definition haversine (lat1 lon1 lat2 lon2 : R) : res R :=
  let lat1_rad := radians lat1 in
  let lat2_rad := radians lat2 in
  let lon1_rad := radians lon1 in
  let lon2_rad := radians lon2 in
  let delta_lat := lat2_rad - lat1_rad in
  let delta_lon := lon2_rad - lon1_rad in
  a <- py_root (sin (delta_lat / 2) ^ 2 + cos lat1_rad * cos lat2_rad * sin (delta_lon / 2) ^ 2) ;;
  s <- py_asin a ;;
  Ok (2 * 6371000 * s).

(** radCor.py:271-314, the cell [ilat], [ilon]: 0 in shade, 1 in the sun *)
Definition relshad_cell (dem : raster R) (lats lons : list R) (nums : Z) (dy dx solh : R)
  (ilat ilon : Z) : res R :=
  start0 <- py_get lats ilat ;;
  start1 <- py_get lons ilon ;;
  lat_list <- linspace start0 (start0 + dy) nums ;;
  lon_list <- linspace start1 (start1 + dx) nums ;;
  maxlat <- py_max lats ;; minlat <- py_min lats ;;
  let lat_short := filter (fun v => Rltb v maxlat && Rltb minlat v)%bool lat_list in
  maxlon <- py_max lons ;; minlon <- py_min lons ;;
  let lon_short := filter (fun v => Rltb v maxlon && Rltb minlon v)%bool lon_list in
  (* [0:k] keeps lists that are shorter than [k] *)
  let lat_short := firstn (length lon_short) lat_short in
  let lon_short := firstn (length lat_short) lon_short in
  lat_end <- py_get lat_short (-1) ;;
  ey <- argmin (map (fun v => Rabs (v - lat_end)) lats) ;;
  lon_end <- py_get lon_short (-1) ;;
  ex <- argmin (map (fun v => Rabs (v - lon_end)) lons) ;;
  y_list <- linspace (IZR ilat) (IZR ey) (Z.of_nat (length lat_short)) ;;
  x_list <- linspace (IZR ilon) (IZR ex) (Z.of_nat (length lon_short)) ;;
  zi <- map_res (fun p => raster_get dem (py_round (fst p)) (py_round (snd p)))
                (combine y_list x_list) ;;
  distance <- map_res (fun p => haversine start0 start1 (fst p) (snd p))
                      (combine lat_short lon_short) ;;
  z0 <- py_get zi 0 ;;
  Hang <- map_res (fun p => q <- adiv (fst p - z0) (snd p) ;; Ok (degrees (atan q)))
                  (combine (tl zi) (tl distance)) ;;
  m <- py_max Hang ;;
  Ok (if Rltb solh m then 0 else 1).

(** radCor.py:259, 263-265: the length of the profile and its two components *)
Definition shad_radius (lats lons : list R) : res R :=
  maxlat <- py_max lats ;; minlat <- py_min lats ;;
  maxlon <- py_max lons ;; minlon <- py_min lons ;;
  Ok (sqrt (Rabs (maxlat - minlat) ^ 2 + Rabs (maxlon - minlon) ^ 2)).

(** radCor.py:239-316 *)
Definition relshad (dem : raster R) (mask : raster number) (lats lons : list R) (solh sdirfn : R)
  : res (raster number) :=
  let illu := map (map (fun _ => None : number)) dem in
  rmax <- shad_radius lats lons ;;
  first <- py_get lats 0 ;; last <- py_get lats (-1) ;;
  q <- adiv (rmax * INR (length lats)) (first - last) ;;
  let nums := py_int q in
  let beta := radians (90 - sdirfn) in
  let dy := sin beta * rmax in
  let dx := cos beta * rmax in
  for_range 1 (Z.of_nat (length lats) - 1) (fun ilat (illu : raster number) =>
    for_range 1 (Z.of_nat (length lons) - 1) (fun ilon (illu : raster number) =>
      m <- raster_get mask ilat ilon ;;
      if num_eqb m 1 then
        v <- relshad_cell dem lats lons nums dy dx solh ilat ilon ;;
        raster_set illu ilat ilon (Some v : number)
      else Ok illu) illu) illu.

(** radCor.py:354-367: sine of the solar elevation, solar elevation and direction of the sun *)
Definition shad_sun (lat soldec tcorr TCART hod : R) : res (R * R * R) :=
  let stime := 180 + 15 / 2 - hod * 15 - tcorr + TCART in
  let sin_h := sin soldec * sin (lat * PI / 180)
               + cos soldec * cos (lat * PI / 180) * cos (stime * PI / 180) in
  h <- py_asin sin_h ;;
  c <- fdiv (sin_h * sin (lat * PI / 180) - sin soldec) (cos h) ;;
  c <- fdiv c (cos (lat * PI / 180)) ;;
  az <- py_acos c ;;
  let solar_az := if Rltb 0 stime then az * 180 / PI else az * 180 / PI * -1 in
  Ok (sin_h, h * 180 / PI, 180 - solar_az).

(** [np.arange(0, 24, step)] *)
Definition hours_of_day (step : Z) : res (list Z) :=
  if (step =? 0)%Z then Err ZeroDivisionError
  else if (step <? 0)%Z then Ok []
  else Ok (map (fun i => (i * step)%Z) (zrange 0 ((24 + step - 1) / step))).

(** [shad1yr[i, mask == 1] = ...] *)
Definition masked_write (mask : raster number) (value : Z -> Z -> res number) (old : raster number)
  : res (raster number) :=
  raster_map (fun y x v => m <- raster_get mask y x ;; if num_eqb m 1 then value y x else Ok v) old.

(** radCor.py:351-374, one hour of one day *)
Definition shad_slot (elvgrid : raster R) (maskgrid : raster number) (lats lons : list R)
  (lat STEP TCART soldec tcorr : R) (doy hod : Z) (shad1yr : list (raster number))
  : res (list (raster number)) :=
  s <- shad_sun lat soldec tcorr TCART (IZR hod) ;;
  let '(sin_h, solar_h, sdirfn) := s in
  let i := py_round (IZR doy * (3600 / STEP) * 24 + IZR hod * 3600 / STEP) in
  old <- py_get shad1yr i ;;
  new <- (if Rltb 0.01 sin_h then
            illu <- relshad elvgrid maskgrid lats lons solar_h sdirfn ;;
            masked_write maskgrid (fun y x => raster_get illu y x) old
          else masked_write maskgrid (fun _ _ => Ok (Some (-1))) old) ;;
  py_update shad1yr i (fun _ => new).

Fixpoint for_each {A S : Type} (l : list A) (body : A -> S -> res S) (s : S) : res S :=
  match l with [] => Ok s | x :: t => s' <- body x s ;; for_each t body s' end.

(** radCor.py:319-376 *)
Definition LUTshad (solparam timecorr : raster R) (lat : R) (elvgrid : raster R)
  (maskgrid : raster number) (lats lons : list R) (STEP TCART : R) : res (list (raster number)) :=
  q <- fdiv 3600 STEP ;;
  let n := py_int (366 * q * 24) in
  if (n <? 0)%Z then Err ValueError else
  let shad1yr := repeat (repeat (repeat None (length lons)) (length lats)) (Z.to_nat n) in
  for_range 0 366 (fun doy shad1yr =>
    soldec <- raster_get solparam doy 3 ;;
    tcorr <- raster_get timecorr doy 3 ;;
    hours <- hours_of_day (py_int (STEP / 3600)) ;;
    for_each hours (fun hod shad1yr =>
      shad_slot elvgrid maskgrid lats lons lat STEP TCART soldec tcorr doy hod shad1yr) shad1yr)
    shad1yr.

(** radCor.py:402-405, one cell and direction *)
Definition sky_visible (slo asp el azi : R) (illu : number) : R :=
  let a := cos (radians el) * sin slo * cos (asp - radians azi) + sin (radians el) * cos slo in
  let a := if Rltb a 0 then 0 else a in
  let a := if Rltb 0 a then 1 else a in
  if num_eqb illu 0 then 0 else a.

(** radCor.py:379-412 *)
Definition LUTsvf (elvgrid : raster R) (maskgrid : raster number) (slopegrid aspectgrid : raster R)
  (lats lons : list R) : res (raster number) :=
  total <- for_each (map (fun i => (10 * i)%Z) (zrange 1 37)) (fun azi total =>
    for_each (map (fun i => (2 * i)%Z) (zrange 1 45)) (fun el total =>
      illu <- relshad elvgrid maskgrid lats lons (IZR el) (IZR azi) ;;
      raster_map (fun y x v =>
        slo <- raster_get slopegrid y x ;;
        asp <- raster_get aspectgrid y x ;;
        i <- raster_get illu y x ;;
        Ok (v + sky_visible (radians slo) (radians asp) (IZR el) (IZR azi) i)) total) total)
    (map (map (fun _ => 0)) elvgrid) ;;
  raster_map (fun y x _ =>
    m <- raster_get maskgrid y x ;;
    if num_eqb m 1 then v <- raster_get total y x ;; Ok (Some (v / (36 * 44))) else Ok None) elvgrid.

(** a value outside the reals is NaN in an array *)
Definition to_number (r : res R) : number := match r with Ok x => Some x | Err _ => None end.

(** radCor.py:480-496: clear-sky transmissivity, direct and diffuse radiation on a horizontal
    surface; [vp] is the vapour pressure *)
Definition clear_sky (eccorr sin_h mopt p temp elv vp : R) : res (R * R * R) :=
  let Sol0 := 1367 in
  let aesc1 := 0.87764 in
  let aesc2 := 0.000024845 in
  let alphss := 0.9 in
  let difra := 0.66 in
  let pm := p / 1013.25 * mopt in
  p84 <- np_power pm 0.84 ;;
  p101 <- np_power pm 1.01 ;;
  let TAUr := exp (-0.0903 * p84 * (1 + pm - p101)) in
  m26 <- np_power mopt 0.26 ;;
  let TAUg := exp (-0.0127 * m26) in
  let k_aes := aesc2 * elv + aesc1 in
  let k_aes := if Rltb 1 k_aes then 1 else k_aes in
  TAUa <- np_power k_aes mopt ;;
  p106 <- np_power pm 1.06 ;;
  let TAUaa := 1 - (1 - alphss) * (1 - pm + p106) * (1 - TAUa) in
  w <- adiv (46.5 * vp) temp ;;
  w68 <- np_power (1 + 79.034 * mopt * w) 0.6828 ;;
  wq <- adiv (2.4959 * mopt * w) (w68 + 6.385 * mopt * w) ;;
  let TAUw := 1 - wq in
  let taucs := TAUr * TAUg * TAUa * TAUw in
  let sdir := Sol0 * eccorr * sin_h * taucs in
  r <- adiv (TAUr * TAUa) TAUaa ;;
  p102 <- np_power pm 1.02 ;;
  Dcs <- adiv (difra * Sol0 * eccorr * sin_h * TAUg * TAUw * TAUaa * (1 - r)) (1 - pm + p102) ;;
  Ok (taucs, sdir, Dcs).

(** radCor.py:499-524: cosine of the angle between the sun and the normal of the surface *)
Definition cos_zetap (lat soldec stime slope aspect : R) : R :=
  let s := radians slope in
  let a := radians (180 - aspect) in
  let l := radians lat in
  (cos s * sin l - cos l * cos a * sin s) * sin soldec
  + (sin l * cos a * sin s + cos s * cos (radians lat)) * cos soldec * cos (stime * PI / 180)
  + sin a * sin s * cos soldec * sin (stime * PI / 180).

(** radCor.py:535-545: one cell by day; [None] for NaN *)
Definition all_sky (eccorr zeta : R) (cs : res (R * R * R)) (illu : number) (cld svf : number) : number :=
  let Sol0 := 1367 in
  let dirovc := 0 in
  let dif1 := 4.6 in
  let Cf := 0.65 in
  match cs, cld, svf with
  | Ok (taucs, sdir, Dcs), Some cld, Some svf =>
      let grcs := sdir + Dcs in
      let swidir0 := Sol0 * eccorr * zeta * taucs in
      let swidir0 := if Rltb zeta 0 then 0 else swidir0 in
      let swidir0 := if num_eqb illu 0 then 0 else swidir0 in
      let swidiff :=
        if Rltb 0 cld
        then Some (grcs * ((100 - Cf * 100 - dif1) / 100 * cld + dif1 / 100) * svf)
        else if Reqb cld 0 then Some (Dcs * svf) else None in
      match swidiff with
      | Some d => Some (swidir0 * (1 - (1 - dirovc) * cld) + d)
      | None => None
      end
  | _, _, _ => None
  end.

(** radCor.py:468-474: hour angle [deg], sine of the elevation, optical air mass *)
Definition rad_stime (STEP hour tcorr TCART : R) : R :=
  180 + STEP / 3600 * 15 / 2 - hour * 15 - tcorr + TCART.
Definition rad_sin_h (lat soldec stime : R) : R :=
  sin soldec * sin (lat * PI / 180) + cos soldec * cos (lat * PI / 180) * cos (stime * PI / 180).
Definition rad_mopt (sin_h : R) : R := 35 * / sqrt (1224 * sin_h ^ 2 + 1).
(** radCor.py:530: the slot of the shading table *)
Definition rad_slot (doy : Z) (hour STEP : R) : Z :=
  py_int ((IZR doy - 1) * (86400 / STEP) + hour / (STEP / 3600)).

(** radCor.py:415-553.  [vapour rh T p] stands for the two metpy calls of lines 464-465. *)
Definition calcRad (vapour : R -> R -> R -> number) (solPars timecorr : raster R) (doy : Z)
  (hour lat : R) (tempgrid pgrid rhgrid cldgrid : raster number) (elvgrid : raster R)
  (maskgrid : raster number) (slopegrid aspectgrid : raster R) (shad1yr : list (raster number))
  (gridsvf : raster number) (STEP TCART : R) : res (raster number) :=
  soldec <- raster_get solPars (doy - 1) 3 ;;
  eccorr <- raster_get solPars (doy - 1) 2 ;;
  tcorr <- raster_get timecorr (doy - 1) 3 ;;
  let stime := rad_stime STEP hour tcorr TCART in
  let sin_h := rad_sin_h lat soldec stime in
  swiasky <-
    (if Rltb 0.01 sin_h then
       let mopt := rad_mopt sin_h in
       illu <- py_get shad1yr (rad_slot doy hour STEP) ;;
       raster_map (fun y x elv =>
         temp <- raster_get tempgrid y x ;;
         p <- raster_get pgrid y x ;;
         rh <- raster_get rhgrid y x ;;
         slope <- raster_get slopegrid y x ;;
         aspect <- raster_get aspectgrid y x ;;
         i <- raster_get illu y x ;;
         cld <- raster_get cldgrid y x ;;
         svf <- raster_get gridsvf y x ;;
         let cs := match temp, p, rh with
                   | Some temp, Some p, Some rh =>
                       match vapour rh temp p with
                       | Some vp => clear_sky eccorr sin_h mopt p temp elv vp
                       | None => Err NotReal
                       end
                   | _, _, _ => Err NotReal
                   end in
         Ok (all_sky eccorr (cos_zetap lat soldec stime slope aspect) cs i cld svf)) elvgrid
     else
       raster_map (fun y x elv =>
         m <- raster_get maskgrid y x ;;
         Ok (if num_eqb m 1 then Some (0 * elv) else None)) elvgrid) ;;
  Ok (rev swiasky).
