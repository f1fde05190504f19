(** * Deep-space coefficients of a record, by what they describe *)
From Coq Require Import ZArith List Bool.
From Verif.Model Require Import Float Str Satrec.

Section Spec.
Context {F : Type}.
(** Everything the deep-space secular and resonance theory computes, except the eccentricity rate [dedt]:
    resonance class and coefficients, rates of inclination, mean anomaly, node and perigee, sidereal time at
    epoch, and the integrator state. *)
Record Resonance := MkResonance { rs_irez : F; rs_d2201 : F; rs_d2211 : F; rs_d3210 : F; rs_d3222 : F; rs_d4410 : F; rs_d4422 : F; rs_d5220 : F; rs_d5232 : F; rs_d5421 : F; rs_d5433 : F; rs_del1 : F; rs_del2 : F; rs_del3 : F; rs_didt : F; rs_dmdt : F; rs_dnodt : F; rs_domdt : F; rs_gsto : F; rs_xfact : F; rs_xlamo : F; rs_xli : F; rs_xni : F; rs_atime : F }.
Definition rs_overwrite (w : Resonance) (s : Satrec F) : Satrec F :=
  set_irez (rs_irez w) (
  set_d2201 (rs_d2201 w) (
  set_d2211 (rs_d2211 w) (
  set_d3210 (rs_d3210 w) (
  set_d3222 (rs_d3222 w) (
  set_d4410 (rs_d4410 w) (
  set_d4422 (rs_d4422 w) (
  set_d5220 (rs_d5220 w) (
  set_d5232 (rs_d5232 w) (
  set_d5421 (rs_d5421 w) (
  set_d5433 (rs_d5433 w) (
  set_del1 (rs_del1 w) (
  set_del2 (rs_del2 w) (
  set_del3 (rs_del3 w) (
  set_didt (rs_didt w) (
  set_dmdt (rs_dmdt w) (
  set_dnodt (rs_dnodt w) (
  set_domdt (rs_domdt w) (
  set_gsto (rs_gsto w) (
  set_xfact (rs_xfact w) (
  set_xlamo (rs_xlamo w) (
  set_xli (rs_xli w) (
  set_xni (rs_xni w) (
  set_atime (rs_atime w) (s)))))))))))))))))))))))).

(** The lunar-solar periodic coefficients of mean anomaly, argument of perigee and node, with their epoch values. *)
Record LunarSolar := MkLunarSolar { ln_sl2 : F; ln_sl3 : F; ln_sl4 : F; ln_xl2 : F; ln_xl3 : F; ln_xl4 : F; ln_plo : F; ln_sgh2 : F; ln_sgh3 : F; ln_sgh4 : F; ln_xgh2 : F; ln_xgh3 : F; ln_xgh4 : F; ln_pgho : F; ln_sh2 : F; ln_sh3 : F; ln_xh2 : F; ln_xh3 : F; ln_pho : F }.
Definition ln_overwrite (w : LunarSolar) (s : Satrec F) : Satrec F :=
  set_sl2 (ln_sl2 w) (
  set_sl3 (ln_sl3 w) (
  set_sl4 (ln_sl4 w) (
  set_xl2 (ln_xl2 w) (
  set_xl3 (ln_xl3 w) (
  set_xl4 (ln_xl4 w) (
  set_plo (ln_plo w) (
  set_sgh2 (ln_sgh2 w) (
  set_sgh3 (ln_sgh3 w) (
  set_sgh4 (ln_sgh4 w) (
  set_xgh2 (ln_xgh2 w) (
  set_xgh3 (ln_xgh3 w) (
  set_xgh4 (ln_xgh4 w) (
  set_pgho (ln_pgho w) (
  set_sh2 (ln_sh2 w) (
  set_sh3 (ln_sh3 w) (
  set_xh2 (ln_xh2 w) (
  set_xh3 (ln_xh3 w) (
  set_pho (ln_pho w) (s))))))))))))))))))).

(** The lunar-solar periodic coefficients of the eccentricity, with its epoch value. *)
Record LunarSolarEcc := MkLunarSolarEcc { ec_se2 : F; ec_se3 : F; ec_ee2 : F; ec_e3 : F; ec_peo : F }.
Definition ec_overwrite (w : LunarSolarEcc) (s : Satrec F) : Satrec F :=
  set_se2 (ec_se2 w) (
  set_se3 (ec_se3 w) (
  set_ee2 (ec_ee2 w) (
  set_e3 (ec_e3 w) (
  set_peo (ec_peo w) (s))))).
End Spec.
Arguments Resonance F : clear implicits.
Arguments LunarSolar F : clear implicits.
Arguments LunarSolarEcc F : clear implicits.
