(** * C72: above the horizon means in sight *)
From Coq Require Import ZArith List Bool Reals Lra Lia Psatz.
From Flocq Require Import Core.Raux IEEE754.BinarySingleNaN.
From Verif.Model Require Import Float Str Satrec Constants Ext Vec3 Sgp4 Sgp4init Propagate Io Transforms.
From Verif.Inst Require Import RInst RTac B64.
From Verif.Spec Require Import Calendar TextSpec NumText TleSpec Str3Api Sgp4Spec PeriodicSpec LibmAccuracy NearAccuracy DeepAccuracy Vectors3 Visibility.
From Verif.Spec Require Str3.
From Verif.Proofs Require Import FrameR TransformFacts.
From Verif.Props Require Import C08 C15 C22 C24 C28 C40 C43 C44 C54 C55 C56 C58 C61 C63 C64 C67 C68.
From Verif.Proofs Require LibmExists.
Local Open Scope R_scope.

Lemma inside_WA p : inside_earth p <-> (v_x p ^ 2 + v_y p ^ 2) / WA ^ 2 + v_z p ^ 2 / WB ^ 2 < 1.
Proof. unfold inside_earth. replace equatorial_radius with WA by (unfold WA, equatorial_radius; lra). replace polar_radius with WB by (unfold WB, polar_radius; lra). reflexivity. Qed.

(** the quadratic form of the ellipsoid *)
Definition form (p q : Vec3 R) : R := (v_x p * v_x q + v_y p * v_y q) / WA ^ 2 + v_z p * v_z q / WB ^ 2.
Lemma form_pos p : 0 <= form p p.
Proof.
  unfold form, Rdiv. assert (0 < / WA ^ 2) by (apply Rinv_0_lt_compat; unfold WA; lra). assert (0 < / WB ^ 2) by (apply Rinv_0_lt_compat; unfold WB; lra).
  assert (0 <= (v_x p * v_x p + v_y p * v_y p) * / WA ^ 2) by (apply Rmult_le_pos; nra). assert (0 <= v_z p * v_z p * / WB ^ 2) by (apply Rmult_le_pos; nra). lra.
Qed.
Lemma inside_form p : inside_earth p <-> form p p < 1.
Proof. rewrite inside_WA. unfold form. replace (v_x p * v_x p + v_y p * v_y p) with (v_x p ^ 2 + v_y p ^ 2) by ring. replace (v_z p * v_z p) with (v_z p ^ 2) by ring. reflexivity. Qed.
Lemma form_plus p q c : form (plus p (scale c q)) (plus p (scale c q)) = form p p + 2 * c * form p q + c * c * form q q.
Proof. unfold form, plus, scale. cbn [v_x v_y v_z]. unfold Rdiv. ring. Qed.

Lemma way s p c : on_the_way s p c = plus s (scale c (minus p s)).
Proof. apply vec_eq; unfold on_the_way, minus, plus, scale; cbn [v_x v_y v_z]; ring. Qed.
(** the foot point of a site: it is on the ellipsoid, and the vertical is the gradient there *)
Lemma foot lat lon : let f := geodedic_to_ecf (MkGeodedic lon lat 0) in form f f = 1 /\ exists k, 0 < k /\ forall q, form f q = k * dot (up lat lon) q.
Proof.
  cbv zeta. pose proof (C40_on_ellipsoid lat lon) as O. destruct (C40_vertical lat lon 0) as (_ & (k & K & G) & _). set (f := geodedic_to_ecf (MkGeodedic lon lat 0)) in *.
  split. { unfold on_ellipsoid in O. unfold form. rewrite <- O. unfold Rdiv. ring. }
  exists k. split; [exact K|]. intros q. unfold scale in G. pose proof (f_equal v_x G) as G1. pose proof (f_equal v_y G) as G2. pose proof (f_equal v_z G) as G3. clear G. clearbody f. cbn [v_x v_y v_z] in G1, G2, G3. unfold form, dot.
  replace ((v_x f * v_x q + v_y f * v_y q) / WA ^ 2 + v_z f * v_z q / WB ^ 2) with (v_x f / WA ^ 2 * v_x q + v_y f / WA ^ 2 * v_y q + v_z f / WB ^ 2 * v_z q) by (unfold Rdiv; ring).
  rewrite G1, G2, G3. ring.
Qed.
Lemma site_split (g : Geodedic R) : geodedic_to_ecf g = plus (geodedic_to_ecf (MkGeodedic (gd_longitude g) (gd_latitude g) 0)) (scale (gd_height g) (up (gd_latitude g) (gd_longitude g))).
Proof. destruct g as [lo la h]. exact (proj2 (proj2 (C40_vertical la lo h))). Qed.

Lemma above_in_sight (g : Geodedic R) p : 0 <= gd_height g -> 0 <= dot (up (gd_latitude g) (gd_longitude g)) (minus p (geodedic_to_ecf g)) -> in_sight (geodedic_to_ecf g) p.
Proof.
  intros H A c C I. apply inside_form in I. rewrite site_split in A, I. destruct (foot (gd_latitude g) (gd_longitude g)) as (F & k & K & G). pose proof (C43_basis (gd_latitude g) (gd_longitude g)) as (_ & _ & UU & _). cbv zeta in UU.
  set (f := geodedic_to_ecf _) in *. set (U := up _ _) in *. set (h := gd_height g) in *. set (D := minus p _) in *.
  set (X := on_the_way _ _ _) in I. assert (E : X = plus f (scale 1 (plus (scale h U) (scale c D)))) by (unfold X; rewrite way; fold D; apply vec_eq; unfold plus, scale; cbn [v_x v_y v_z]; ring).
  rewrite E, form_plus, F, G in I. pose proof (form_pos (plus (scale h U) (scale c D))) as P.
  assert (L : dot U (plus (scale h U) (scale c D)) = h + c * dot U D) by (rewrite dot_plus_r, !dot_scale_r, UU; ring). rewrite L in I.
  assert (0 <= c * dot U D) by (apply Rmult_le_pos; lra). assert (0 <= k * (h + c * dot U D)) by (apply Rmult_le_pos; lra). lra.
Qed.
Lemma below_hidden lat lon p : let s := geodedic_to_ecf (MkGeodedic lon lat 0) in dot (up lat lon) (minus p s) < 0 -> ~ in_sight s p.
Proof.
  intros s B S. destruct (foot lat lon) as (F & k & K & G). fold s in F, G. set (D := minus p s) in *. specialize (G D).
  assert (N : form s D < 0) by (rewrite G; nra). pose proof (form_pos D) as Q. set (b := form s D) in *. set (q := form D D) in *.
  apply (S (- b / (q - b))).
  - split; [apply Rmult_le_pos; [lra|left; apply Rinv_0_lt_compat; lra]|]. apply Rmult_le_reg_r with (q - b); [lra|]. replace (- b / (q - b) * (q - b)) with (- b) by (field; lra). lra.
  - apply inside_form. rewrite way. fold D. rewrite form_plus, F. fold b q. set (c := - b / (q - b)).
    assert (C : 0 < c) by (apply Rdiv_lt_0_compat; lra). assert (CQ : c * q <= - b). { assert (c * (q - b) = - b) by (unfold c; field; lra). nra. }
    assert (c * (2 * b + c * q) < 0) by nra. nra.
Qed.

(** Exact arithmetic.  A satellite that the look angles put at or above the horizon of a site on the ground or
    above it is in sight: no point of the segment between them is inside the Earth (nor, for that matter, is the satellite). *)
Theorem C72_above_horizon :
  forall (g : Geodedic R) (p : Vec3 R), 0 <= gd_height g -> p <> geodedic_to_ecf g ->
    0 <= be_elevation (ecf_to_look_angles g p) -> in_sight (geodedic_to_ecf g) p.
Proof.
  intros g p H N E. destruct (C44_look_angles g p N) as (_ & R0 & RE & _ & _ & _ & Z). cbv zeta in *. apply above_in_sight; [exact H|]. rewrite <- Z.
  apply Rmult_le_pos; [lra|]. apply sin_ge_0; lra.
Qed.
Print Assumptions C72_above_horizon.

(** A satellite below the horizon of a site on the ground is hidden by the Earth. *)
Theorem C72_below_horizon :
  forall (g : Geodedic R) (p : Vec3 R), gd_height g = 0 -> p <> geodedic_to_ecf g ->
    be_elevation (ecf_to_look_angles g p) < 0 -> ~ in_sight (geodedic_to_ecf g) p.
Proof.
  intros g p H N E. destruct (C44_look_angles g p N) as (_ & R0 & RE & _ & _ & _ & Z). cbv zeta in *. destruct g as [lo la h]. cbn [gd_height] in H. subst h.
  apply below_hidden. cbn [gd_latitude gd_longitude] in Z. rewrite <- Z. assert (sin (be_elevation (ecf_to_look_angles {| gd_longitude := lo; gd_latitude := la; gd_height := 0 |} p)) < 0) by (apply sin_lt_0_var; lra). nra.
Qed.
Print Assumptions C72_below_horizon.

(** binary64: the computed elevation [b] against the true position [P], [e] kilometres being the error of the
    position: the sine of the elevation above or below zero by (2 e + 4 cm) / [r0] decides (for ranges of [r0] and more; the
    satellite not within a nine-hundredth of the range of the vertical line through the site). *)
Definition sight_of (e r0 : R) (b : Bearing b64) (g : Geodedic b64) (P : Vec3 R) : Prop :=
  let lat := B2R (gd_latitude g) in let lon := B2R (gd_longitude g) in
  let site := geodedic_to_ecf (FO := ROps) (exact_geo g) in let D := minus P site in
  let N := scale (-1) (south lat lon) in let E := east lon in
  r0 <= norm D -> norm D / 900 <= sqrt (dot N D * dot N D + dot E D * dot E D) ->
  (0 <= B2R (gd_height g) -> (2 * e + 4 / 100000) / r0 <= sin (B2R (be_elevation b)) -> in_sight site P) /\
  (B2R (gd_height g) = 0 -> sin (B2R (be_elevation b)) < - ((2 * e + 4 / 100000) / r0) -> ~ in_sight site P).

Lemma sight_from_bearing e r0 b g P : 0 <= e -> 0 < r0 ->
  bearing_of e r0 b (B2R (gd_latitude g)) (B2R (gd_longitude g)) (minus P (geodedic_to_ecf (FO := ROps) (exact_geo g))) -> sight_of e r0 b g P.
Proof.
  intros HE HR B. unfold sight_of. cbv zeta. intros R H. destruct (B R) as (_ & _ & B1). destruct (B1 H) as (_ & _ & B2 & _). clear B B1 H.
  set (site := geodedic_to_ecf _) in *. set (D := minus P site) in *. set (r := norm D) in *. set (U := up _ _) in *.
  assert (M : (2 * e + 4 / 100000) / r <= (2 * e + 4 / 100000) / r0) by (apply Rmult_le_compat_l; [lra|apply Rinv_le_contravar; lra]).
  apply Rabs_le_inv in B2. assert (X : dot U D = dot U D / r * r) by (field; lra).
  split; intros Z S.
  - apply (above_in_sight (exact_geo g) P); [exact Z|]. change (0 <= dot U D). rewrite X. apply Rmult_le_pos; lra.
  - assert (Q : dot U D < 0) by (rewrite X; nra).
    assert (G : exact_geo g = MkGeodedic (B2R (gd_longitude g)) (B2R (gd_latitude g)) 0) by (unfold exact_geo; rewrite Z; reflexivity).
    unfold D, U in Q. unfold site in *. rewrite G in *. exact (below_hidden _ _ P Q).
Qed.

(** From the text of a set to visibility, near-Earth. *)
Theorem C72_text_near :
  forall (lm : libm), accurate lm ->
  forall (full : bool) (fuel fuel' : nat) (l1 l2 : str) (t : tle) (s : Satrec b64),
    well_written l1 l2 t -> usual t -> perigee_class full (tle_elements t) ->
    twoline2satrec (FO := B64Ops lm) fuel l1 l2 = Done (Ok s) ->
    let el := tle_elements t in
      forall (d : DateTime) (m : R) (n : Z), civil d -> in_span d -> minutes_since_epoch t d m -> Rabs m <= span (tle_elements t) - 1 ->
        days_from (Date 2000 1 1) (dt_date d) n ->
        let jd := 2451544.5 + IZR n + IZR (tod d) / 86400 in
        exists tm, Rabs (tm - m) <= 4 / 1000000 /\
          let i := Str3.i0 el in
          (- (1 / 1000) + 1 / 1000000000 <= Str3.e_unclamped el full tm 0 -> exists E u,
             kepler_angle (Str3.axN el full tm 0) (Str3.ayN el full tm 0 i) (Str3.U el full tm 0 i) E /\
             sin u = Str3.sin_u el full tm 0 i E /\ cos u = Str3.cos_u el full tm 0 i E /\
             (1 + 1 / 100000000 <= Str3.rk el full tm 0 i E u ->
              exists v, propogate_datetime (FO := B64Ops lm) fuel' s d = Done (Ok v) /\
                forall g : Geodedic b64, ok_geo g ->
                  let gm := gstime_datetime (FO := B64Ops lm) d in
                  sight_of (51 / 100000) 10 (ecf_to_look_angles (FO := B64Ops lm) g (eci_to_ecf (FO := B64Ops lm) (g4_position v) gm)) g
                    (earth_fixed (gmst_angle jd) (Str3.position el full tm 0 i E u)))).
Proof.
  intros lm ACC full fuel fuel' l1 l2 t s W U P T el d m n Cd Sd Md Hm HN jd.
  destruct (C61_text_to_bearing lm ACC full fuel fuel' l1 l2 t s W U P T d m n Cd Sd Md Hm HN) as (tm & E1 & K). exists tm. split; [exact E1|]. cbv zeta in *.
  intros HE. destruct (K HE) as (E & u & O1 & O2 & O3 & O4). exists E, u. split; [exact O1|]. split; [exact O2|]. split; [exact O3|]. intros HR. destruct (O4 HR) as (v & PR & L). exists v. split; [exact PR|].
  intros g HG. apply sight_from_bearing; [lra|lra|]. exact (L g HG).
Qed.
Print Assumptions C72_text_near.

(** ... deep space, ... *)
Theorem C72_text_deep :
  forall (lm : libm), accurate lm ->
  forall (fuel fuel' : nat) (l1 l2 : str) (t : tle) (x : R) (s : Satrec b64),
    well_written l1 l2 t -> deep_usual t -> epoch_days t x -> (60 <= fuel')%nat ->
    twoline2satrec (FO := B64Ops lm) fuel l1 l2 = Done (Ok s) ->
    let el := tle_elements t in
    forall fuelR s0R (sR : Satrec R) rR, sgp4init (FO := ROps) fuelR s0R (text_options t x) = Done (sR, rR) ->
      forall (d : DateTime) (m : R) (n : Z), civil d -> in_span d -> minutes_since_epoch t d m -> -43199 <= m <= 43199 ->
        days_from (Date 2000 1 1) (dt_date d) n ->
        let jd := 2451544.5 + IZR n + IZR (tod d) / 86400 in
        exists tm, Rabs (tm - m) <= 4 / 1000000 /\
          let de := sr_dedt sR * tm in
          let i := Rabs (Str3.i0 el + d_incl sR tm) in
          (- (1 / 1000) + 1 / 1000000000 <= Str3.e_unclamped el false tm de -> 1 / 1000000000 <= Str3.e el false tm de + d_ecc sR tm ->
           exists v E u,
             propogate_datetime (FO := B64Ops lm) fuel' s d = Done (Ok v) /\
             kepler_angle (Str3.axN el false tm de) (Str3.ayN el false tm de i) (Str3.U el false tm de i) E /\
             sin u = Str3.sin_u el false tm de i E /\ cos u = Str3.cos_u el false tm de i E /\
             forall g : Geodedic b64, ok_geo g ->
               let gm := gstime_datetime (FO := B64Ops lm) d in
               sight_of (51 / 100000) 10 (ecf_to_look_angles (FO := B64Ops lm) g (eci_to_ecf (FO := B64Ops lm) (g4_position v) gm)) g
                 (earth_fixed (gmst_angle jd) (Str3.position el false tm de i E u))).
Proof.
  intros lm ACC fuel fuel' l1 l2 t x s W U X F T el fuelR s0R sR rR I d m n Cd Sd Md Hm HN jd.
  destruct (C64_text_to_deep_bearing lm ACC fuel fuel' l1 l2 t x s W U X F T fuelR s0R sR rR I d m n Cd Sd Md Hm HN) as (tm & E1 & K). exists tm. split; [exact E1|]. cbv zeta in *.
  intros H1 H2. destruct (K H1 H2) as (v & E & u & PR & O1 & O2 & O3 & L). exists v, E, u. split; [exact PR|]. split; [exact O1|]. split; [exact O2|]. split; [exact O3|].
  intros g HG. apply sight_from_bearing; [lra|lra|]. exact (L g HG).
Qed.
Print Assumptions C72_text_deep.

(** ... and the highly eccentric sets. *)
Theorem C72_text_eccentric :
  forall (lm : libm), accurate lm ->
  forall (fuel fuel' : nat) (l1 l2 : str) (t : tle) (x : R) (s : Satrec b64),
    well_written l1 l2 t -> eccentric_usual t -> epoch_days t x -> (60 <= fuel')%nat ->
    twoline2satrec (FO := B64Ops lm) fuel l1 l2 = Done (Ok s) ->
    let el := tle_elements t in
    forall fuelR s0R (sR : Satrec R) rR, sgp4init (FO := ROps) fuelR s0R (text_options t x) = Done (sR, rR) ->
      forall (d : DateTime) (m : R) (n : Z), civil d -> in_span d -> minutes_since_epoch t d m -> -43199 <= m <= 43199 ->
        days_from (Date 2000 1 1) (dt_date d) n ->
        let jd := 2451544.5 + IZR n + IZR (tod d) / 86400 in
        exists tm, Rabs (tm - m) <= 4 / 1000000 /\
          let de := sr_dedt sR * tm in
          let i := Rabs (Str3.i0 el + d_incl sR tm) in
          exists E u,
            kepler_angle (Str3.axN el false tm de) (Str3.ayN el false tm de i) (Str3.U el false tm de i) E /\
            sin u = Str3.sin_u el false tm de i E /\ cos u = Str3.cos_u el false tm de i E /\
            (1 + 1 / 50000000 <= Str3.rk el false tm de i E u ->
             exists v, propogate_datetime (FO := B64Ops lm) fuel' s d = Done (Ok v) /\
               forall g : Geodedic b64, ok_geo g ->
                 let gm := gstime_datetime (FO := B64Ops lm) d in
                 sight_of (49 / 10000) 100 (ecf_to_look_angles (FO := B64Ops lm) g (eci_to_ecf (FO := B64Ops lm) (g4_position v) gm)) g
                   (earth_fixed (gmst_angle jd) (Str3.position el false tm de i E u))).
Proof.
  intros lm ACC fuel fuel' l1 l2 t x s W U X F T el fuelR s0R sR rR I d m n Cd Sd Md Hm HN jd.
  destruct (C68_text_to_observation lm ACC fuel fuel' 2%nat l1 l2 t x s W U X F ltac:(auto) T fuelR s0R sR rR I d m n Cd Sd Md Hm HN) as (tm & E1 & K). exists tm. split; [exact E1|]. cbv zeta in *.
  destruct K as (E & u & O1 & O2 & O3 & O4). exists E, u. split; [exact O1|]. split; [exact O2|]. split; [exact O3|]. intros HR. destruct (O4 HR) as (v & PR & L & _). exists v. split; [exact PR|].
  intros g HG. apply sight_from_bearing; [lra|lra|]. exact (proj1 (L g HG)).
Qed.
Print Assumptions C72_text_eccentric.

(** Non-vacuity: seen from the equator at longitude zero, a satellite over longitude 23 degrees (p = (7000, 3000, 0)) is above
    the horizon and in sight, and its mirror image at the other side of the Earth is below the horizon and hidden. *)
Theorem C72_example :
  let g := MkGeodedic 0 0 0 in let site := geodedic_to_ecf (FO := ROps) g in
  let p := MkVec3 7000 3000 0 in let q := MkVec3 (-7000) 3000 0 in
  site = MkVec3 equatorial_radius 0 0 /\ 0 < be_elevation (ecf_to_look_angles (FO := ROps) g p) /\ in_sight site p /\
  be_elevation (ecf_to_look_angles (FO := ROps) g q) < 0 /\ ~ in_sight site q.
Proof.
  cbv zeta. set (g := MkGeodedic 0 0 0).
  assert (S : geodedic_to_ecf g = MkVec3 equatorial_radius 0 0).
  { unfold g. rewrite to_ecf_R. cbn [gd_longitude gd_latitude gd_height]. unfold prime_vertical, w_of, equatorial_radius, WA. rewrite sin_0, cos_0, !Rmult_0_r, Rminus_0_r, sqrt_1. apply vec_eq; cbn [v_x v_y v_z]; lra. }
  assert (U : up 0 0 = MkVec3 1 0 0) by (unfold up; rewrite sin_0, cos_0; apply vec_eq; cbn [v_x v_y v_z]; ring).
  assert (K : forall x, MkVec3 x 3000 0 <> geodedic_to_ecf g) by (intros x Q; rewrite S in Q; apply (f_equal v_y) in Q; cbn in Q; lra).
  split; [exact S|].
  assert (A : 0 < be_elevation (ecf_to_look_angles g (MkVec3 7000 3000 0))).
  { destruct (C44_look_angles g _ (K 7000)) as (_ & R0 & RE & _ & _ & _ & Z). cbv zeta in *. set (a := be_elevation _) in *. rewrite S in Z. cbn [gd_latitude gd_longitude g] in Z. rewrite U in Z.
    unfold dot, minus, plus, scale, equatorial_radius in Z. cbn [v_x v_y v_z] in Z. destruct (Rlt_or_le 0 a) as [|L]; [assumption|exfalso].
    assert (sin a <= 0) by (assert (0 <= sin (- a)) by (apply sin_ge_0; lra); rewrite sin_neg in *; lra). nra. }
  assert (B : be_elevation (ecf_to_look_angles g (MkVec3 (-7000) 3000 0)) < 0).
  { clear A. destruct (C44_look_angles g _ (K (-7000))) as (_ & R0 & RE & _ & _ & _ & Z). cbv zeta in *. set (a := be_elevation _) in *. rewrite S in Z. cbn [gd_latitude gd_longitude g] in Z. rewrite U in Z.
    unfold dot, minus, plus, scale, equatorial_radius in Z. cbn [v_x v_y v_z] in Z. destruct (Rlt_or_le a 0) as [|L]; [assumption|exfalso].
    assert (0 <= sin a) by (apply sin_ge_0; lra). nra. }
  split; [exact A|]. split; [apply C72_above_horizon; [cbn; lra|apply K|lra]|]. split; [exact B|]. apply C72_below_horizon; [reflexivity|apply K|exact B].
Qed.
Print Assumptions C72_example.
