(** * The satellite record [Satrec] (src/io.rs) and the small enums it stores. *)
From Coq Require Import ZArith List.
From Verif.Model Require Import Float Str.
Import ListNotations.

(** dpper.rs:14-18 *)
Inductive DpperInit := InitY | InitN.
(** dpper.rs:20-25 *)
Inductive DpperOpsMode := OpsA | OpsI | OpsUndefined.
(** initl.rs:84-88 *)
Inductive InitlMethod := MethodN | MethodD.

(** [==] on the enums (derived PartialEq) *)
Definition init_eqb (a b : DpperInit) : bool :=
  match a, b with InitY, InitY | InitN, InitN => true | _, _ => false end.
Definition opsmode_eqb (a b : DpperOpsMode) : bool :=
  match a, b with OpsA, OpsA | OpsI, OpsI | OpsUndefined, OpsUndefined => true | _, _ => false end.
Definition method_eqb (a b : InitlMethod) : bool :=
  match a, b with MethodN, MethodN | MethodD, MethodD => true | _, _ => false end.

Section Satrec.
Context {F : Type} {FO : FloatOps F}.

(** io.rs:9-117 (u32 and i64 fields are modelled as Z: the code only stores small constants in
    [error] and [isimp], and a parsed two-character number in [epochyr]). *)
Record Satrec := MkSatrec {
  sr_name : option str;
  sr_init : DpperInit;
  sr_operationmode : DpperOpsMode;
  sr_error : Z;
  sr_satnum : str;
  sr_epochyr : Z;
  sr_epochdays : F;
  sr_ndot : F;
  sr_nddot : F;
  sr_bstar : F;
  sr_inclo : F;
  sr_nodeo : F;
  sr_ecco : F;
  sr_mo : F;
  sr_no : F;
  sr_a : F;
  sr_argpo : F;
  sr_alta : F;
  sr_altp : F;
  sr_jdsatepoch : F;
  sr_isimp : Z;
  sr_method : InitlMethod;
  sr_aycof : F;
  sr_con41 : F;
  sr_cc1 : F;
  sr_cc4 : F;
  sr_cc5 : F;
  sr_d2 : F;
  sr_d3 : F;
  sr_d4 : F;
  sr_delmo : F;
  sr_eta : F;
  sr_argpdot : F;
  sr_omgcof : F;
  sr_sinmao : F;
  sr_t : F;
  sr_t2cof : F;
  sr_t3cof : F;
  sr_t4cof : F;
  sr_t5cof : F;
  sr_x1mth2 : F;
  sr_x7thm1 : F;
  sr_mdot : F;
  sr_nodedot : F;
  sr_xlcof : F;
  sr_xmcof : F;
  sr_nodecf : F;
  sr_irez : F;
  sr_d2201 : F;
  sr_d2211 : F;
  sr_d3210 : F;
  sr_d3222 : F;
  sr_d4410 : F;
  sr_d4422 : F;
  sr_d5220 : F;
  sr_d5232 : F;
  sr_d5421 : F;
  sr_d5433 : F;
  sr_dedt : F;
  sr_del1 : F;
  sr_del2 : F;
  sr_del3 : F;
  sr_didt : F;
  sr_dmdt : F;
  sr_dnodt : F;
  sr_domdt : F;
  sr_e3 : F;
  sr_ee2 : F;
  sr_peo : F;
  sr_pgho : F;
  sr_pho : F;
  sr_pinco : F;
  sr_plo : F;
  sr_se2 : F;
  sr_se3 : F;
  sr_sgh2 : F;
  sr_sgh3 : F;
  sr_sgh4 : F;
  sr_sh2 : F;
  sr_sh3 : F;
  sr_si2 : F;
  sr_si3 : F;
  sr_sl2 : F;
  sr_sl3 : F;
  sr_sl4 : F;
  sr_gsto : F;
  sr_xfact : F;
  sr_xgh2 : F;
  sr_xgh3 : F;
  sr_xgh4 : F;
  sr_xh2 : F;
  sr_xh3 : F;
  sr_xi2 : F;
  sr_xi3 : F;
  sr_xl2 : F;
  sr_xl3 : F;
  sr_xl4 : F;
  sr_xlamo : F;
  sr_zmol : F;
  sr_zmos : F;
  sr_atime : F;
  sr_xli : F;
  sr_xni : F
}.

(** Field assignment [satrec.x = v]. *)
Definition set_name v (s : Satrec) : Satrec :=
  MkSatrec v (sr_init s) (sr_operationmode s) (sr_error s) (sr_satnum s) (sr_epochyr s) (sr_epochdays s) (sr_ndot s) (sr_nddot s) (sr_bstar s) (sr_inclo s) (sr_nodeo s) (sr_ecco s) (sr_mo s) (sr_no s) (sr_a s) (sr_argpo s) (sr_alta s) (sr_altp s) (sr_jdsatepoch s) (sr_isimp s) (sr_method s) (sr_aycof s) (sr_con41 s) (sr_cc1 s) (sr_cc4 s) (sr_cc5 s) (sr_d2 s) (sr_d3 s) (sr_d4 s) (sr_delmo s) (sr_eta s) (sr_argpdot s) (sr_omgcof s) (sr_sinmao s) (sr_t s) (sr_t2cof s) (sr_t3cof s) (sr_t4cof s) (sr_t5cof s) (sr_x1mth2 s) (sr_x7thm1 s) (sr_mdot s) (sr_nodedot s) (sr_xlcof s) (sr_xmcof s) (sr_nodecf s) (sr_irez s) (sr_d2201 s) (sr_d2211 s) (sr_d3210 s) (sr_d3222 s) (sr_d4410 s) (sr_d4422 s) (sr_d5220 s) (sr_d5232 s) (sr_d5421 s) (sr_d5433 s) (sr_dedt s) (sr_del1 s) (sr_del2 s) (sr_del3 s) (sr_didt s) (sr_dmdt s) (sr_dnodt s) (sr_domdt s) (sr_e3 s) (sr_ee2 s) (sr_peo s) (sr_pgho s) (sr_pho s) (sr_pinco s) (sr_plo s) (sr_se2 s) (sr_se3 s) (sr_sgh2 s) (sr_sgh3 s) (sr_sgh4 s) (sr_sh2 s) (sr_sh3 s) (sr_si2 s) (sr_si3 s) (sr_sl2 s) (sr_sl3 s) (sr_sl4 s) (sr_gsto s) (sr_xfact s) (sr_xgh2 s) (sr_xgh3 s) (sr_xgh4 s) (sr_xh2 s) (sr_xh3 s) (sr_xi2 s) (sr_xi3 s) (sr_xl2 s) (sr_xl3 s) (sr_xl4 s) (sr_xlamo s) (sr_zmol s) (sr_zmos s) (sr_atime s) (sr_xli s) (sr_xni s).
Definition set_init v (s : Satrec) : Satrec :=
  MkSatrec (sr_name s) v (sr_operationmode s) (sr_error s) (sr_satnum s) (sr_epochyr s) (sr_epochdays s) (sr_ndot s) (sr_nddot s) (sr_bstar s) (sr_inclo s) (sr_nodeo s) (sr_ecco s) (sr_mo s) (sr_no s) (sr_a s) (sr_argpo s) (sr_alta s) (sr_altp s) (sr_jdsatepoch s) (sr_isimp s) (sr_method s) (sr_aycof s) (sr_con41 s) (sr_cc1 s) (sr_cc4 s) (sr_cc5 s) (sr_d2 s) (sr_d3 s) (sr_d4 s) (sr_delmo s) (sr_eta s) (sr_argpdot s) (sr_omgcof s) (sr_sinmao s) (sr_t s) (sr_t2cof s) (sr_t3cof s) (sr_t4cof s) (sr_t5cof s) (sr_x1mth2 s) (sr_x7thm1 s) (sr_mdot s) (sr_nodedot s) (sr_xlcof s) (sr_xmcof s) (sr_nodecf s) (sr_irez s) (sr_d2201 s) (sr_d2211 s) (sr_d3210 s) (sr_d3222 s) (sr_d4410 s) (sr_d4422 s) (sr_d5220 s) (sr_d5232 s) (sr_d5421 s) (sr_d5433 s) (sr_dedt s) (sr_del1 s) (sr_del2 s) (sr_del3 s) (sr_didt s) (sr_dmdt s) (sr_dnodt s) (sr_domdt s) (sr_e3 s) (sr_ee2 s) (sr_peo s) (sr_pgho s) (sr_pho s) (sr_pinco s) (sr_plo s) (sr_se2 s) (sr_se3 s) (sr_sgh2 s) (sr_sgh3 s) (sr_sgh4 s) (sr_sh2 s) (sr_sh3 s) (sr_si2 s) (sr_si3 s) (sr_sl2 s) (sr_sl3 s) (sr_sl4 s) (sr_gsto s) (sr_xfact s) (sr_xgh2 s) (sr_xgh3 s) (sr_xgh4 s) (sr_xh2 s) (sr_xh3 s) (sr_xi2 s) (sr_xi3 s) (sr_xl2 s) (sr_xl3 s) (sr_xl4 s) (sr_xlamo s) (sr_zmol s) (sr_zmos s) (sr_atime s) (sr_xli s) (sr_xni s).
Definition set_operationmode v (s : Satrec) : Satrec :=
  MkSatrec (sr_name s) (sr_init s) v (sr_error s) (sr_satnum s) (sr_epochyr s) (sr_epochdays s) (sr_ndot s) (sr_nddot s) (sr_bstar s) (sr_inclo s) (sr_nodeo s) (sr_ecco s) (sr_mo s) (sr_no s) (sr_a s) (sr_argpo s) (sr_alta s) (sr_altp s) (sr_jdsatepoch s) (sr_isimp s) (sr_method s) (sr_aycof s) (sr_con41 s) (sr_cc1 s) (sr_cc4 s) (sr_cc5 s) (sr_d2 s) (sr_d3 s) (sr_d4 s) (sr_delmo s) (sr_eta s) (sr_argpdot s) (sr_omgcof s) (sr_sinmao s) (sr_t s) (sr_t2cof s) (sr_t3cof s) (sr_t4cof s) (sr_t5cof s) (sr_x1mth2 s) (sr_x7thm1 s) (sr_mdot s) (sr_nodedot s) (sr_xlcof s) (sr_xmcof s) (sr_nodecf s) (sr_irez s) (sr_d2201 s) (sr_d2211 s) (sr_d3210 s) (sr_d3222 s) (sr_d4410 s) (sr_d4422 s) (sr_d5220 s) (sr_d5232 s) (sr_d5421 s) (sr_d5433 s) (sr_dedt s) (sr_del1 s) (sr_del2 s) (sr_del3 s) (sr_didt s) (sr_dmdt s) (sr_dnodt s) (sr_domdt s) (sr_e3 s) (sr_ee2 s) (sr_peo s) (sr_pgho s) (sr_pho s) (sr_pinco s) (sr_plo s) (sr_se2 s) (sr_se3 s) (sr_sgh2 s) (sr_sgh3 s) (sr_sgh4 s) (sr_sh2 s) (sr_sh3 s) (sr_si2 s) (sr_si3 s) (sr_sl2 s) (sr_sl3 s) (sr_sl4 s) (sr_gsto s) (sr_xfact s) (sr_xgh2 s) (sr_xgh3 s) (sr_xgh4 s) (sr_xh2 s) (sr_xh3 s) (sr_xi2 s) (sr_xi3 s) (sr_xl2 s) (sr_xl3 s) (sr_xl4 s) (sr_xlamo s) (sr_zmol s) (sr_zmos s) (sr_atime s) (sr_xli s) (sr_xni s).
Definition set_error v (s : Satrec) : Satrec :=
  MkSatrec (sr_name s) (sr_init s) (sr_operationmode s) v (sr_satnum s) (sr_epochyr s) (sr_epochdays s) (sr_ndot s) (sr_nddot s) (sr_bstar s) (sr_inclo s) (sr_nodeo s) (sr_ecco s) (sr_mo s) (sr_no s) (sr_a s) (sr_argpo s) (sr_alta s) (sr_altp s) (sr_jdsatepoch s) (sr_isimp s) (sr_method s) (sr_aycof s) (sr_con41 s) (sr_cc1 s) (sr_cc4 s) (sr_cc5 s) (sr_d2 s) (sr_d3 s) (sr_d4 s) (sr_delmo s) (sr_eta s) (sr_argpdot s) (sr_omgcof s) (sr_sinmao s) (sr_t s) (sr_t2cof s) (sr_t3cof s) (sr_t4cof s) (sr_t5cof s) (sr_x1mth2 s) (sr_x7thm1 s) (sr_mdot s) (sr_nodedot s) (sr_xlcof s) (sr_xmcof s) (sr_nodecf s) (sr_irez s) (sr_d2201 s) (sr_d2211 s) (sr_d3210 s) (sr_d3222 s) (sr_d4410 s) (sr_d4422 s) (sr_d5220 s) (sr_d5232 s) (sr_d5421 s) (sr_d5433 s) (sr_dedt s) (sr_del1 s) (sr_del2 s) (sr_del3 s) (sr_didt s) (sr_dmdt s) (sr_dnodt s) (sr_domdt s) (sr_e3 s) (sr_ee2 s) (sr_peo s) (sr_pgho s) (sr_pho s) (sr_pinco s) (sr_plo s) (sr_se2 s) (sr_se3 s) (sr_sgh2 s) (sr_sgh3 s) (sr_sgh4 s) (sr_sh2 s) (sr_sh3 s) (sr_si2 s) (sr_si3 s) (sr_sl2 s) (sr_sl3 s) (sr_sl4 s) (sr_gsto s) (sr_xfact s) (sr_xgh2 s) (sr_xgh3 s) (sr_xgh4 s) (sr_xh2 s) (sr_xh3 s) (sr_xi2 s) (sr_xi3 s) (sr_xl2 s) (sr_xl3 s) (sr_xl4 s) (sr_xlamo s) (sr_zmol s) (sr_zmos s) (sr_atime s) (sr_xli s) (sr_xni s).
Definition set_satnum v (s : Satrec) : Satrec :=
  MkSatrec (sr_name s) (sr_init s) (sr_operationmode s) (sr_error s) v (sr_epochyr s) (sr_epochdays s) (sr_ndot s) (sr_nddot s) (sr_bstar s) (sr_inclo s) (sr_nodeo s) (sr_ecco s) (sr_mo s) (sr_no s) (sr_a s) (sr_argpo s) (sr_alta s) (sr_altp s) (sr_jdsatepoch s) (sr_isimp s) (sr_method s) (sr_aycof s) (sr_con41 s) (sr_cc1 s) (sr_cc4 s) (sr_cc5 s) (sr_d2 s) (sr_d3 s) (sr_d4 s) (sr_delmo s) (sr_eta s) (sr_argpdot s) (sr_omgcof s) (sr_sinmao s) (sr_t s) (sr_t2cof s) (sr_t3cof s) (sr_t4cof s) (sr_t5cof s) (sr_x1mth2 s) (sr_x7thm1 s) (sr_mdot s) (sr_nodedot s) (sr_xlcof s) (sr_xmcof s) (sr_nodecf s) (sr_irez s) (sr_d2201 s) (sr_d2211 s) (sr_d3210 s) (sr_d3222 s) (sr_d4410 s) (sr_d4422 s) (sr_d5220 s) (sr_d5232 s) (sr_d5421 s) (sr_d5433 s) (sr_dedt s) (sr_del1 s) (sr_del2 s) (sr_del3 s) (sr_didt s) (sr_dmdt s) (sr_dnodt s) (sr_domdt s) (sr_e3 s) (sr_ee2 s) (sr_peo s) (sr_pgho s) (sr_pho s) (sr_pinco s) (sr_plo s) (sr_se2 s) (sr_se3 s) (sr_sgh2 s) (sr_sgh3 s) (sr_sgh4 s) (sr_sh2 s) (sr_sh3 s) (sr_si2 s) (sr_si3 s) (sr_sl2 s) (sr_sl3 s) (sr_sl4 s) (sr_gsto s) (sr_xfact s) (sr_xgh2 s) (sr_xgh3 s) (sr_xgh4 s) (sr_xh2 s) (sr_xh3 s) (sr_xi2 s) (sr_xi3 s) (sr_xl2 s) (sr_xl3 s) (sr_xl4 s) (sr_xlamo s) (sr_zmol s) (sr_zmos s) (sr_atime s) (sr_xli s) (sr_xni s).
Definition set_epochyr v (s : Satrec) : Satrec :=
  MkSatrec (sr_name s) (sr_init s) (sr_operationmode s) (sr_error s) (sr_satnum s) v (sr_epochdays s) (sr_ndot s) (sr_nddot s) (sr_bstar s) (sr_inclo s) (sr_nodeo s) (sr_ecco s) (sr_mo s) (sr_no s) (sr_a s) (sr_argpo s) (sr_alta s) (sr_altp s) (sr_jdsatepoch s) (sr_isimp s) (sr_method s) (sr_aycof s) (sr_con41 s) (sr_cc1 s) (sr_cc4 s) (sr_cc5 s) (sr_d2 s) (sr_d3 s) (sr_d4 s) (sr_delmo s) (sr_eta s) (sr_argpdot s) (sr_omgcof s) (sr_sinmao s) (sr_t s) (sr_t2cof s) (sr_t3cof s) (sr_t4cof s) (sr_t5cof s) (sr_x1mth2 s) (sr_x7thm1 s) (sr_mdot s) (sr_nodedot s) (sr_xlcof s) (sr_xmcof s) (sr_nodecf s) (sr_irez s) (sr_d2201 s) (sr_d2211 s) (sr_d3210 s) (sr_d3222 s) (sr_d4410 s) (sr_d4422 s) (sr_d5220 s) (sr_d5232 s) (sr_d5421 s) (sr_d5433 s) (sr_dedt s) (sr_del1 s) (sr_del2 s) (sr_del3 s) (sr_didt s) (sr_dmdt s) (sr_dnodt s) (sr_domdt s) (sr_e3 s) (sr_ee2 s) (sr_peo s) (sr_pgho s) (sr_pho s) (sr_pinco s) (sr_plo s) (sr_se2 s) (sr_se3 s) (sr_sgh2 s) (sr_sgh3 s) (sr_sgh4 s) (sr_sh2 s) (sr_sh3 s) (sr_si2 s) (sr_si3 s) (sr_sl2 s) (sr_sl3 s) (sr_sl4 s) (sr_gsto s) (sr_xfact s) (sr_xgh2 s) (sr_xgh3 s) (sr_xgh4 s) (sr_xh2 s) (sr_xh3 s) (sr_xi2 s) (sr_xi3 s) (sr_xl2 s) (sr_xl3 s) (sr_xl4 s) (sr_xlamo s) (sr_zmol s) (sr_zmos s) (sr_atime s) (sr_xli s) (sr_xni s).
Definition set_epochdays v (s : Satrec) : Satrec :=
  MkSatrec (sr_name s) (sr_init s) (sr_operationmode s) (sr_error s) (sr_satnum s) (sr_epochyr s) v (sr_ndot s) (sr_nddot s) (sr_bstar s) (sr_inclo s) (sr_nodeo s) (sr_ecco s) (sr_mo s) (sr_no s) (sr_a s) (sr_argpo s) (sr_alta s) (sr_altp s) (sr_jdsatepoch s) (sr_isimp s) (sr_method s) (sr_aycof s) (sr_con41 s) (sr_cc1 s) (sr_cc4 s) (sr_cc5 s) (sr_d2 s) (sr_d3 s) (sr_d4 s) (sr_delmo s) (sr_eta s) (sr_argpdot s) (sr_omgcof s) (sr_sinmao s) (sr_t s) (sr_t2cof s) (sr_t3cof s) (sr_t4cof s) (sr_t5cof s) (sr_x1mth2 s) (sr_x7thm1 s) (sr_mdot s) (sr_nodedot s) (sr_xlcof s) (sr_xmcof s) (sr_nodecf s) (sr_irez s) (sr_d2201 s) (sr_d2211 s) (sr_d3210 s) (sr_d3222 s) (sr_d4410 s) (sr_d4422 s) (sr_d5220 s) (sr_d5232 s) (sr_d5421 s) (sr_d5433 s) (sr_dedt s) (sr_del1 s) (sr_del2 s) (sr_del3 s) (sr_didt s) (sr_dmdt s) (sr_dnodt s) (sr_domdt s) (sr_e3 s) (sr_ee2 s) (sr_peo s) (sr_pgho s) (sr_pho s) (sr_pinco s) (sr_plo s) (sr_se2 s) (sr_se3 s) (sr_sgh2 s) (sr_sgh3 s) (sr_sgh4 s) (sr_sh2 s) (sr_sh3 s) (sr_si2 s) (sr_si3 s) (sr_sl2 s) (sr_sl3 s) (sr_sl4 s) (sr_gsto s) (sr_xfact s) (sr_xgh2 s) (sr_xgh3 s) (sr_xgh4 s) (sr_xh2 s) (sr_xh3 s) (sr_xi2 s) (sr_xi3 s) (sr_xl2 s) (sr_xl3 s) (sr_xl4 s) (sr_xlamo s) (sr_zmol s) (sr_zmos s) (sr_atime s) (sr_xli s) (sr_xni s).
Definition set_ndot v (s : Satrec) : Satrec :=
  MkSatrec (sr_name s) (sr_init s) (sr_operationmode s) (sr_error s) (sr_satnum s) (sr_epochyr s) (sr_epochdays s) v (sr_nddot s) (sr_bstar s) (sr_inclo s) (sr_nodeo s) (sr_ecco s) (sr_mo s) (sr_no s) (sr_a s) (sr_argpo s) (sr_alta s) (sr_altp s) (sr_jdsatepoch s) (sr_isimp s) (sr_method s) (sr_aycof s) (sr_con41 s) (sr_cc1 s) (sr_cc4 s) (sr_cc5 s) (sr_d2 s) (sr_d3 s) (sr_d4 s) (sr_delmo s) (sr_eta s) (sr_argpdot s) (sr_omgcof s) (sr_sinmao s) (sr_t s) (sr_t2cof s) (sr_t3cof s) (sr_t4cof s) (sr_t5cof s) (sr_x1mth2 s) (sr_x7thm1 s) (sr_mdot s) (sr_nodedot s) (sr_xlcof s) (sr_xmcof s) (sr_nodecf s) (sr_irez s) (sr_d2201 s) (sr_d2211 s) (sr_d3210 s) (sr_d3222 s) (sr_d4410 s) (sr_d4422 s) (sr_d5220 s) (sr_d5232 s) (sr_d5421 s) (sr_d5433 s) (sr_dedt s) (sr_del1 s) (sr_del2 s) (sr_del3 s) (sr_didt s) (sr_dmdt s) (sr_dnodt s) (sr_domdt s) (sr_e3 s) (sr_ee2 s) (sr_peo s) (sr_pgho s) (sr_pho s) (sr_pinco s) (sr_plo s) (sr_se2 s) (sr_se3 s) (sr_sgh2 s) (sr_sgh3 s) (sr_sgh4 s) (sr_sh2 s) (sr_sh3 s) (sr_si2 s) (sr_si3 s) (sr_sl2 s) (sr_sl3 s) (sr_sl4 s) (sr_gsto s) (sr_xfact s) (sr_xgh2 s) (sr_xgh3 s) (sr_xgh4 s) (sr_xh2 s) (sr_xh3 s) (sr_xi2 s) (sr_xi3 s) (sr_xl2 s) (sr_xl3 s) (sr_xl4 s) (sr_xlamo s) (sr_zmol s) (sr_zmos s) (sr_atime s) (sr_xli s) (sr_xni s).
Definition set_nddot v (s : Satrec) : Satrec :=
  MkSatrec (sr_name s) (sr_init s) (sr_operationmode s) (sr_error s) (sr_satnum s) (sr_epochyr s) (sr_epochdays s) (sr_ndot s) v (sr_bstar s) (sr_inclo s) (sr_nodeo s) (sr_ecco s) (sr_mo s) (sr_no s) (sr_a s) (sr_argpo s) (sr_alta s) (sr_altp s) (sr_jdsatepoch s) (sr_isimp s) (sr_method s) (sr_aycof s) (sr_con41 s) (sr_cc1 s) (sr_cc4 s) (sr_cc5 s) (sr_d2 s) (sr_d3 s) (sr_d4 s) (sr_delmo s) (sr_eta s) (sr_argpdot s) (sr_omgcof s) (sr_sinmao s) (sr_t s) (sr_t2cof s) (sr_t3cof s) (sr_t4cof s) (sr_t5cof s) (sr_x1mth2 s) (sr_x7thm1 s) (sr_mdot s) (sr_nodedot s) (sr_xlcof s) (sr_xmcof s) (sr_nodecf s) (sr_irez s) (sr_d2201 s) (sr_d2211 s) (sr_d3210 s) (sr_d3222 s) (sr_d4410 s) (sr_d4422 s) (sr_d5220 s) (sr_d5232 s) (sr_d5421 s) (sr_d5433 s) (sr_dedt s) (sr_del1 s) (sr_del2 s) (sr_del3 s) (sr_didt s) (sr_dmdt s) (sr_dnodt s) (sr_domdt s) (sr_e3 s) (sr_ee2 s) (sr_peo s) (sr_pgho s) (sr_pho s) (sr_pinco s) (sr_plo s) (sr_se2 s) (sr_se3 s) (sr_sgh2 s) (sr_sgh3 s) (sr_sgh4 s) (sr_sh2 s) (sr_sh3 s) (sr_si2 s) (sr_si3 s) (sr_sl2 s) (sr_sl3 s) (sr_sl4 s) (sr_gsto s) (sr_xfact s) (sr_xgh2 s) (sr_xgh3 s) (sr_xgh4 s) (sr_xh2 s) (sr_xh3 s) (sr_xi2 s) (sr_xi3 s) (sr_xl2 s) (sr_xl3 s) (sr_xl4 s) (sr_xlamo s) (sr_zmol s) (sr_zmos s) (sr_atime s) (sr_xli s) (sr_xni s).
Definition set_bstar v (s : Satrec) : Satrec :=
  MkSatrec (sr_name s) (sr_init s) (sr_operationmode s) (sr_error s) (sr_satnum s) (sr_epochyr s) (sr_epochdays s) (sr_ndot s) (sr_nddot s) v (sr_inclo s) (sr_nodeo s) (sr_ecco s) (sr_mo s) (sr_no s) (sr_a s) (sr_argpo s) (sr_alta s) (sr_altp s) (sr_jdsatepoch s) (sr_isimp s) (sr_method s) (sr_aycof s) (sr_con41 s) (sr_cc1 s) (sr_cc4 s) (sr_cc5 s) (sr_d2 s) (sr_d3 s) (sr_d4 s) (sr_delmo s) (sr_eta s) (sr_argpdot s) (sr_omgcof s) (sr_sinmao s) (sr_t s) (sr_t2cof s) (sr_t3cof s) (sr_t4cof s) (sr_t5cof s) (sr_x1mth2 s) (sr_x7thm1 s) (sr_mdot s) (sr_nodedot s) (sr_xlcof s) (sr_xmcof s) (sr_nodecf s) (sr_irez s) (sr_d2201 s) (sr_d2211 s) (sr_d3210 s) (sr_d3222 s) (sr_d4410 s) (sr_d4422 s) (sr_d5220 s) (sr_d5232 s) (sr_d5421 s) (sr_d5433 s) (sr_dedt s) (sr_del1 s) (sr_del2 s) (sr_del3 s) (sr_didt s) (sr_dmdt s) (sr_dnodt s) (sr_domdt s) (sr_e3 s) (sr_ee2 s) (sr_peo s) (sr_pgho s) (sr_pho s) (sr_pinco s) (sr_plo s) (sr_se2 s) (sr_se3 s) (sr_sgh2 s) (sr_sgh3 s) (sr_sgh4 s) (sr_sh2 s) (sr_sh3 s) (sr_si2 s) (sr_si3 s) (sr_sl2 s) (sr_sl3 s) (sr_sl4 s) (sr_gsto s) (sr_xfact s) (sr_xgh2 s) (sr_xgh3 s) (sr_xgh4 s) (sr_xh2 s) (sr_xh3 s) (sr_xi2 s) (sr_xi3 s) (sr_xl2 s) (sr_xl3 s) (sr_xl4 s) (sr_xlamo s) (sr_zmol s) (sr_zmos s) (sr_atime s) (sr_xli s) (sr_xni s).
Definition set_inclo v (s : Satrec) : Satrec :=
  MkSatrec (sr_name s) (sr_init s) (sr_operationmode s) (sr_error s) (sr_satnum s) (sr_epochyr s) (sr_epochdays s) (sr_ndot s) (sr_nddot s) (sr_bstar s) v (sr_nodeo s) (sr_ecco s) (sr_mo s) (sr_no s) (sr_a s) (sr_argpo s) (sr_alta s) (sr_altp s) (sr_jdsatepoch s) (sr_isimp s) (sr_method s) (sr_aycof s) (sr_con41 s) (sr_cc1 s) (sr_cc4 s) (sr_cc5 s) (sr_d2 s) (sr_d3 s) (sr_d4 s) (sr_delmo s) (sr_eta s) (sr_argpdot s) (sr_omgcof s) (sr_sinmao s) (sr_t s) (sr_t2cof s) (sr_t3cof s) (sr_t4cof s) (sr_t5cof s) (sr_x1mth2 s) (sr_x7thm1 s) (sr_mdot s) (sr_nodedot s) (sr_xlcof s) (sr_xmcof s) (sr_nodecf s) (sr_irez s) (sr_d2201 s) (sr_d2211 s) (sr_d3210 s) (sr_d3222 s) (sr_d4410 s) (sr_d4422 s) (sr_d5220 s) (sr_d5232 s) (sr_d5421 s) (sr_d5433 s) (sr_dedt s) (sr_del1 s) (sr_del2 s) (sr_del3 s) (sr_didt s) (sr_dmdt s) (sr_dnodt s) (sr_domdt s) (sr_e3 s) (sr_ee2 s) (sr_peo s) (sr_pgho s) (sr_pho s) (sr_pinco s) (sr_plo s) (sr_se2 s) (sr_se3 s) (sr_sgh2 s) (sr_sgh3 s) (sr_sgh4 s) (sr_sh2 s) (sr_sh3 s) (sr_si2 s) (sr_si3 s) (sr_sl2 s) (sr_sl3 s) (sr_sl4 s) (sr_gsto s) (sr_xfact s) (sr_xgh2 s) (sr_xgh3 s) (sr_xgh4 s) (sr_xh2 s) (sr_xh3 s) (sr_xi2 s) (sr_xi3 s) (sr_xl2 s) (sr_xl3 s) (sr_xl4 s) (sr_xlamo s) (sr_zmol s) (sr_zmos s) (sr_atime s) (sr_xli s) (sr_xni s).
Definition set_nodeo v (s : Satrec) : Satrec :=
  MkSatrec (sr_name s) (sr_init s) (sr_operationmode s) (sr_error s) (sr_satnum s) (sr_epochyr s) (sr_epochdays s) (sr_ndot s) (sr_nddot s) (sr_bstar s) (sr_inclo s) v (sr_ecco s) (sr_mo s) (sr_no s) (sr_a s) (sr_argpo s) (sr_alta s) (sr_altp s) (sr_jdsatepoch s) (sr_isimp s) (sr_method s) (sr_aycof s) (sr_con41 s) (sr_cc1 s) (sr_cc4 s) (sr_cc5 s) (sr_d2 s) (sr_d3 s) (sr_d4 s) (sr_delmo s) (sr_eta s) (sr_argpdot s) (sr_omgcof s) (sr_sinmao s) (sr_t s) (sr_t2cof s) (sr_t3cof s) (sr_t4cof s) (sr_t5cof s) (sr_x1mth2 s) (sr_x7thm1 s) (sr_mdot s) (sr_nodedot s) (sr_xlcof s) (sr_xmcof s) (sr_nodecf s) (sr_irez s) (sr_d2201 s) (sr_d2211 s) (sr_d3210 s) (sr_d3222 s) (sr_d4410 s) (sr_d4422 s) (sr_d5220 s) (sr_d5232 s) (sr_d5421 s) (sr_d5433 s) (sr_dedt s) (sr_del1 s) (sr_del2 s) (sr_del3 s) (sr_didt s) (sr_dmdt s) (sr_dnodt s) (sr_domdt s) (sr_e3 s) (sr_ee2 s) (sr_peo s) (sr_pgho s) (sr_pho s) (sr_pinco s) (sr_plo s) (sr_se2 s) (sr_se3 s) (sr_sgh2 s) (sr_sgh3 s) (sr_sgh4 s) (sr_sh2 s) (sr_sh3 s) (sr_si2 s) (sr_si3 s) (sr_sl2 s) (sr_sl3 s) (sr_sl4 s) (sr_gsto s) (sr_xfact s) (sr_xgh2 s) (sr_xgh3 s) (sr_xgh4 s) (sr_xh2 s) (sr_xh3 s) (sr_xi2 s) (sr_xi3 s) (sr_xl2 s) (sr_xl3 s) (sr_xl4 s) (sr_xlamo s) (sr_zmol s) (sr_zmos s) (sr_atime s) (sr_xli s) (sr_xni s).
Definition set_ecco v (s : Satrec) : Satrec :=
  MkSatrec (sr_name s) (sr_init s) (sr_operationmode s) (sr_error s) (sr_satnum s) (sr_epochyr s) (sr_epochdays s) (sr_ndot s) (sr_nddot s) (sr_bstar s) (sr_inclo s) (sr_nodeo s) v (sr_mo s) (sr_no s) (sr_a s) (sr_argpo s) (sr_alta s) (sr_altp s) (sr_jdsatepoch s) (sr_isimp s) (sr_method s) (sr_aycof s) (sr_con41 s) (sr_cc1 s) (sr_cc4 s) (sr_cc5 s) (sr_d2 s) (sr_d3 s) (sr_d4 s) (sr_delmo s) (sr_eta s) (sr_argpdot s) (sr_omgcof s) (sr_sinmao s) (sr_t s) (sr_t2cof s) (sr_t3cof s) (sr_t4cof s) (sr_t5cof s) (sr_x1mth2 s) (sr_x7thm1 s) (sr_mdot s) (sr_nodedot s) (sr_xlcof s) (sr_xmcof s) (sr_nodecf s) (sr_irez s) (sr_d2201 s) (sr_d2211 s) (sr_d3210 s) (sr_d3222 s) (sr_d4410 s) (sr_d4422 s) (sr_d5220 s) (sr_d5232 s) (sr_d5421 s) (sr_d5433 s) (sr_dedt s) (sr_del1 s) (sr_del2 s) (sr_del3 s) (sr_didt s) (sr_dmdt s) (sr_dnodt s) (sr_domdt s) (sr_e3 s) (sr_ee2 s) (sr_peo s) (sr_pgho s) (sr_pho s) (sr_pinco s) (sr_plo s) (sr_se2 s) (sr_se3 s) (sr_sgh2 s) (sr_sgh3 s) (sr_sgh4 s) (sr_sh2 s) (sr_sh3 s) (sr_si2 s) (sr_si3 s) (sr_sl2 s) (sr_sl3 s) (sr_sl4 s) (sr_gsto s) (sr_xfact s) (sr_xgh2 s) (sr_xgh3 s) (sr_xgh4 s) (sr_xh2 s) (sr_xh3 s) (sr_xi2 s) (sr_xi3 s) (sr_xl2 s) (sr_xl3 s) (sr_xl4 s) (sr_xlamo s) (sr_zmol s) (sr_zmos s) (sr_atime s) (sr_xli s) (sr_xni s).
Definition set_mo v (s : Satrec) : Satrec :=
  MkSatrec (sr_name s) (sr_init s) (sr_operationmode s) (sr_error s) (sr_satnum s) (sr_epochyr s) (sr_epochdays s) (sr_ndot s) (sr_nddot s) (sr_bstar s) (sr_inclo s) (sr_nodeo s) (sr_ecco s) v (sr_no s) (sr_a s) (sr_argpo s) (sr_alta s) (sr_altp s) (sr_jdsatepoch s) (sr_isimp s) (sr_method s) (sr_aycof s) (sr_con41 s) (sr_cc1 s) (sr_cc4 s) (sr_cc5 s) (sr_d2 s) (sr_d3 s) (sr_d4 s) (sr_delmo s) (sr_eta s) (sr_argpdot s) (sr_omgcof s) (sr_sinmao s) (sr_t s) (sr_t2cof s) (sr_t3cof s) (sr_t4cof s) (sr_t5cof s) (sr_x1mth2 s) (sr_x7thm1 s) (sr_mdot s) (sr_nodedot s) (sr_xlcof s) (sr_xmcof s) (sr_nodecf s) (sr_irez s) (sr_d2201 s) (sr_d2211 s) (sr_d3210 s) (sr_d3222 s) (sr_d4410 s) (sr_d4422 s) (sr_d5220 s) (sr_d5232 s) (sr_d5421 s) (sr_d5433 s) (sr_dedt s) (sr_del1 s) (sr_del2 s) (sr_del3 s) (sr_didt s) (sr_dmdt s) (sr_dnodt s) (sr_domdt s) (sr_e3 s) (sr_ee2 s) (sr_peo s) (sr_pgho s) (sr_pho s) (sr_pinco s) (sr_plo s) (sr_se2 s) (sr_se3 s) (sr_sgh2 s) (sr_sgh3 s) (sr_sgh4 s) (sr_sh2 s) (sr_sh3 s) (sr_si2 s) (sr_si3 s) (sr_sl2 s) (sr_sl3 s) (sr_sl4 s) (sr_gsto s) (sr_xfact s) (sr_xgh2 s) (sr_xgh3 s) (sr_xgh4 s) (sr_xh2 s) (sr_xh3 s) (sr_xi2 s) (sr_xi3 s) (sr_xl2 s) (sr_xl3 s) (sr_xl4 s) (sr_xlamo s) (sr_zmol s) (sr_zmos s) (sr_atime s) (sr_xli s) (sr_xni s).
Definition set_no v (s : Satrec) : Satrec :=
  MkSatrec (sr_name s) (sr_init s) (sr_operationmode s) (sr_error s) (sr_satnum s) (sr_epochyr s) (sr_epochdays s) (sr_ndot s) (sr_nddot s) (sr_bstar s) (sr_inclo s) (sr_nodeo s) (sr_ecco s) (sr_mo s) v (sr_a s) (sr_argpo s) (sr_alta s) (sr_altp s) (sr_jdsatepoch s) (sr_isimp s) (sr_method s) (sr_aycof s) (sr_con41 s) (sr_cc1 s) (sr_cc4 s) (sr_cc5 s) (sr_d2 s) (sr_d3 s) (sr_d4 s) (sr_delmo s) (sr_eta s) (sr_argpdot s) (sr_omgcof s) (sr_sinmao s) (sr_t s) (sr_t2cof s) (sr_t3cof s) (sr_t4cof s) (sr_t5cof s) (sr_x1mth2 s) (sr_x7thm1 s) (sr_mdot s) (sr_nodedot s) (sr_xlcof s) (sr_xmcof s) (sr_nodecf s) (sr_irez s) (sr_d2201 s) (sr_d2211 s) (sr_d3210 s) (sr_d3222 s) (sr_d4410 s) (sr_d4422 s) (sr_d5220 s) (sr_d5232 s) (sr_d5421 s) (sr_d5433 s) (sr_dedt s) (sr_del1 s) (sr_del2 s) (sr_del3 s) (sr_didt s) (sr_dmdt s) (sr_dnodt s) (sr_domdt s) (sr_e3 s) (sr_ee2 s) (sr_peo s) (sr_pgho s) (sr_pho s) (sr_pinco s) (sr_plo s) (sr_se2 s) (sr_se3 s) (sr_sgh2 s) (sr_sgh3 s) (sr_sgh4 s) (sr_sh2 s) (sr_sh3 s) (sr_si2 s) (sr_si3 s) (sr_sl2 s) (sr_sl3 s) (sr_sl4 s) (sr_gsto s) (sr_xfact s) (sr_xgh2 s) (sr_xgh3 s) (sr_xgh4 s) (sr_xh2 s) (sr_xh3 s) (sr_xi2 s) (sr_xi3 s) (sr_xl2 s) (sr_xl3 s) (sr_xl4 s) (sr_xlamo s) (sr_zmol s) (sr_zmos s) (sr_atime s) (sr_xli s) (sr_xni s).
Definition set_a v (s : Satrec) : Satrec :=
  MkSatrec (sr_name s) (sr_init s) (sr_operationmode s) (sr_error s) (sr_satnum s) (sr_epochyr s) (sr_epochdays s) (sr_ndot s) (sr_nddot s) (sr_bstar s) (sr_inclo s) (sr_nodeo s) (sr_ecco s) (sr_mo s) (sr_no s) v (sr_argpo s) (sr_alta s) (sr_altp s) (sr_jdsatepoch s) (sr_isimp s) (sr_method s) (sr_aycof s) (sr_con41 s) (sr_cc1 s) (sr_cc4 s) (sr_cc5 s) (sr_d2 s) (sr_d3 s) (sr_d4 s) (sr_delmo s) (sr_eta s) (sr_argpdot s) (sr_omgcof s) (sr_sinmao s) (sr_t s) (sr_t2cof s) (sr_t3cof s) (sr_t4cof s) (sr_t5cof s) (sr_x1mth2 s) (sr_x7thm1 s) (sr_mdot s) (sr_nodedot s) (sr_xlcof s) (sr_xmcof s) (sr_nodecf s) (sr_irez s) (sr_d2201 s) (sr_d2211 s) (sr_d3210 s) (sr_d3222 s) (sr_d4410 s) (sr_d4422 s) (sr_d5220 s) (sr_d5232 s) (sr_d5421 s) (sr_d5433 s) (sr_dedt s) (sr_del1 s) (sr_del2 s) (sr_del3 s) (sr_didt s) (sr_dmdt s) (sr_dnodt s) (sr_domdt s) (sr_e3 s) (sr_ee2 s) (sr_peo s) (sr_pgho s) (sr_pho s) (sr_pinco s) (sr_plo s) (sr_se2 s) (sr_se3 s) (sr_sgh2 s) (sr_sgh3 s) (sr_sgh4 s) (sr_sh2 s) (sr_sh3 s) (sr_si2 s) (sr_si3 s) (sr_sl2 s) (sr_sl3 s) (sr_sl4 s) (sr_gsto s) (sr_xfact s) (sr_xgh2 s) (sr_xgh3 s) (sr_xgh4 s) (sr_xh2 s) (sr_xh3 s) (sr_xi2 s) (sr_xi3 s) (sr_xl2 s) (sr_xl3 s) (sr_xl4 s) (sr_xlamo s) (sr_zmol s) (sr_zmos s) (sr_atime s) (sr_xli s) (sr_xni s).
Definition set_argpo v (s : Satrec) : Satrec :=
  MkSatrec (sr_name s) (sr_init s) (sr_operationmode s) (sr_error s) (sr_satnum s) (sr_epochyr s) (sr_epochdays s) (sr_ndot s) (sr_nddot s) (sr_bstar s) (sr_inclo s) (sr_nodeo s) (sr_ecco s) (sr_mo s) (sr_no s) (sr_a s) v (sr_alta s) (sr_altp s) (sr_jdsatepoch s) (sr_isimp s) (sr_method s) (sr_aycof s) (sr_con41 s) (sr_cc1 s) (sr_cc4 s) (sr_cc5 s) (sr_d2 s) (sr_d3 s) (sr_d4 s) (sr_delmo s) (sr_eta s) (sr_argpdot s) (sr_omgcof s) (sr_sinmao s) (sr_t s) (sr_t2cof s) (sr_t3cof s) (sr_t4cof s) (sr_t5cof s) (sr_x1mth2 s) (sr_x7thm1 s) (sr_mdot s) (sr_nodedot s) (sr_xlcof s) (sr_xmcof s) (sr_nodecf s) (sr_irez s) (sr_d2201 s) (sr_d2211 s) (sr_d3210 s) (sr_d3222 s) (sr_d4410 s) (sr_d4422 s) (sr_d5220 s) (sr_d5232 s) (sr_d5421 s) (sr_d5433 s) (sr_dedt s) (sr_del1 s) (sr_del2 s) (sr_del3 s) (sr_didt s) (sr_dmdt s) (sr_dnodt s) (sr_domdt s) (sr_e3 s) (sr_ee2 s) (sr_peo s) (sr_pgho s) (sr_pho s) (sr_pinco s) (sr_plo s) (sr_se2 s) (sr_se3 s) (sr_sgh2 s) (sr_sgh3 s) (sr_sgh4 s) (sr_sh2 s) (sr_sh3 s) (sr_si2 s) (sr_si3 s) (sr_sl2 s) (sr_sl3 s) (sr_sl4 s) (sr_gsto s) (sr_xfact s) (sr_xgh2 s) (sr_xgh3 s) (sr_xgh4 s) (sr_xh2 s) (sr_xh3 s) (sr_xi2 s) (sr_xi3 s) (sr_xl2 s) (sr_xl3 s) (sr_xl4 s) (sr_xlamo s) (sr_zmol s) (sr_zmos s) (sr_atime s) (sr_xli s) (sr_xni s).
Definition set_alta v (s : Satrec) : Satrec :=
  MkSatrec (sr_name s) (sr_init s) (sr_operationmode s) (sr_error s) (sr_satnum s) (sr_epochyr s) (sr_epochdays s) (sr_ndot s) (sr_nddot s) (sr_bstar s) (sr_inclo s) (sr_nodeo s) (sr_ecco s) (sr_mo s) (sr_no s) (sr_a s) (sr_argpo s) v (sr_altp s) (sr_jdsatepoch s) (sr_isimp s) (sr_method s) (sr_aycof s) (sr_con41 s) (sr_cc1 s) (sr_cc4 s) (sr_cc5 s) (sr_d2 s) (sr_d3 s) (sr_d4 s) (sr_delmo s) (sr_eta s) (sr_argpdot s) (sr_omgcof s) (sr_sinmao s) (sr_t s) (sr_t2cof s) (sr_t3cof s) (sr_t4cof s) (sr_t5cof s) (sr_x1mth2 s) (sr_x7thm1 s) (sr_mdot s) (sr_nodedot s) (sr_xlcof s) (sr_xmcof s) (sr_nodecf s) (sr_irez s) (sr_d2201 s) (sr_d2211 s) (sr_d3210 s) (sr_d3222 s) (sr_d4410 s) (sr_d4422 s) (sr_d5220 s) (sr_d5232 s) (sr_d5421 s) (sr_d5433 s) (sr_dedt s) (sr_del1 s) (sr_del2 s) (sr_del3 s) (sr_didt s) (sr_dmdt s) (sr_dnodt s) (sr_domdt s) (sr_e3 s) (sr_ee2 s) (sr_peo s) (sr_pgho s) (sr_pho s) (sr_pinco s) (sr_plo s) (sr_se2 s) (sr_se3 s) (sr_sgh2 s) (sr_sgh3 s) (sr_sgh4 s) (sr_sh2 s) (sr_sh3 s) (sr_si2 s) (sr_si3 s) (sr_sl2 s) (sr_sl3 s) (sr_sl4 s) (sr_gsto s) (sr_xfact s) (sr_xgh2 s) (sr_xgh3 s) (sr_xgh4 s) (sr_xh2 s) (sr_xh3 s) (sr_xi2 s) (sr_xi3 s) (sr_xl2 s) (sr_xl3 s) (sr_xl4 s) (sr_xlamo s) (sr_zmol s) (sr_zmos s) (sr_atime s) (sr_xli s) (sr_xni s).
Definition set_altp v (s : Satrec) : Satrec :=
  MkSatrec (sr_name s) (sr_init s) (sr_operationmode s) (sr_error s) (sr_satnum s) (sr_epochyr s) (sr_epochdays s) (sr_ndot s) (sr_nddot s) (sr_bstar s) (sr_inclo s) (sr_nodeo s) (sr_ecco s) (sr_mo s) (sr_no s) (sr_a s) (sr_argpo s) (sr_alta s) v (sr_jdsatepoch s) (sr_isimp s) (sr_method s) (sr_aycof s) (sr_con41 s) (sr_cc1 s) (sr_cc4 s) (sr_cc5 s) (sr_d2 s) (sr_d3 s) (sr_d4 s) (sr_delmo s) (sr_eta s) (sr_argpdot s) (sr_omgcof s) (sr_sinmao s) (sr_t s) (sr_t2cof s) (sr_t3cof s) (sr_t4cof s) (sr_t5cof s) (sr_x1mth2 s) (sr_x7thm1 s) (sr_mdot s) (sr_nodedot s) (sr_xlcof s) (sr_xmcof s) (sr_nodecf s) (sr_irez s) (sr_d2201 s) (sr_d2211 s) (sr_d3210 s) (sr_d3222 s) (sr_d4410 s) (sr_d4422 s) (sr_d5220 s) (sr_d5232 s) (sr_d5421 s) (sr_d5433 s) (sr_dedt s) (sr_del1 s) (sr_del2 s) (sr_del3 s) (sr_didt s) (sr_dmdt s) (sr_dnodt s) (sr_domdt s) (sr_e3 s) (sr_ee2 s) (sr_peo s) (sr_pgho s) (sr_pho s) (sr_pinco s) (sr_plo s) (sr_se2 s) (sr_se3 s) (sr_sgh2 s) (sr_sgh3 s) (sr_sgh4 s) (sr_sh2 s) (sr_sh3 s) (sr_si2 s) (sr_si3 s) (sr_sl2 s) (sr_sl3 s) (sr_sl4 s) (sr_gsto s) (sr_xfact s) (sr_xgh2 s) (sr_xgh3 s) (sr_xgh4 s) (sr_xh2 s) (sr_xh3 s) (sr_xi2 s) (sr_xi3 s) (sr_xl2 s) (sr_xl3 s) (sr_xl4 s) (sr_xlamo s) (sr_zmol s) (sr_zmos s) (sr_atime s) (sr_xli s) (sr_xni s).
Definition set_jdsatepoch v (s : Satrec) : Satrec :=
  MkSatrec (sr_name s) (sr_init s) (sr_operationmode s) (sr_error s) (sr_satnum s) (sr_epochyr s) (sr_epochdays s) (sr_ndot s) (sr_nddot s) (sr_bstar s) (sr_inclo s) (sr_nodeo s) (sr_ecco s) (sr_mo s) (sr_no s) (sr_a s) (sr_argpo s) (sr_alta s) (sr_altp s) v (sr_isimp s) (sr_method s) (sr_aycof s) (sr_con41 s) (sr_cc1 s) (sr_cc4 s) (sr_cc5 s) (sr_d2 s) (sr_d3 s) (sr_d4 s) (sr_delmo s) (sr_eta s) (sr_argpdot s) (sr_omgcof s) (sr_sinmao s) (sr_t s) (sr_t2cof s) (sr_t3cof s) (sr_t4cof s) (sr_t5cof s) (sr_x1mth2 s) (sr_x7thm1 s) (sr_mdot s) (sr_nodedot s) (sr_xlcof s) (sr_xmcof s) (sr_nodecf s) (sr_irez s) (sr_d2201 s) (sr_d2211 s) (sr_d3210 s) (sr_d3222 s) (sr_d4410 s) (sr_d4422 s) (sr_d5220 s) (sr_d5232 s) (sr_d5421 s) (sr_d5433 s) (sr_dedt s) (sr_del1 s) (sr_del2 s) (sr_del3 s) (sr_didt s) (sr_dmdt s) (sr_dnodt s) (sr_domdt s) (sr_e3 s) (sr_ee2 s) (sr_peo s) (sr_pgho s) (sr_pho s) (sr_pinco s) (sr_plo s) (sr_se2 s) (sr_se3 s) (sr_sgh2 s) (sr_sgh3 s) (sr_sgh4 s) (sr_sh2 s) (sr_sh3 s) (sr_si2 s) (sr_si3 s) (sr_sl2 s) (sr_sl3 s) (sr_sl4 s) (sr_gsto s) (sr_xfact s) (sr_xgh2 s) (sr_xgh3 s) (sr_xgh4 s) (sr_xh2 s) (sr_xh3 s) (sr_xi2 s) (sr_xi3 s) (sr_xl2 s) (sr_xl3 s) (sr_xl4 s) (sr_xlamo s) (sr_zmol s) (sr_zmos s) (sr_atime s) (sr_xli s) (sr_xni s).
Definition set_isimp v (s : Satrec) : Satrec :=
  MkSatrec (sr_name s) (sr_init s) (sr_operationmode s) (sr_error s) (sr_satnum s) (sr_epochyr s) (sr_epochdays s) (sr_ndot s) (sr_nddot s) (sr_bstar s) (sr_inclo s) (sr_nodeo s) (sr_ecco s) (sr_mo s) (sr_no s) (sr_a s) (sr_argpo s) (sr_alta s) (sr_altp s) (sr_jdsatepoch s) v (sr_method s) (sr_aycof s) (sr_con41 s) (sr_cc1 s) (sr_cc4 s) (sr_cc5 s) (sr_d2 s) (sr_d3 s) (sr_d4 s) (sr_delmo s) (sr_eta s) (sr_argpdot s) (sr_omgcof s) (sr_sinmao s) (sr_t s) (sr_t2cof s) (sr_t3cof s) (sr_t4cof s) (sr_t5cof s) (sr_x1mth2 s) (sr_x7thm1 s) (sr_mdot s) (sr_nodedot s) (sr_xlcof s) (sr_xmcof s) (sr_nodecf s) (sr_irez s) (sr_d2201 s) (sr_d2211 s) (sr_d3210 s) (sr_d3222 s) (sr_d4410 s) (sr_d4422 s) (sr_d5220 s) (sr_d5232 s) (sr_d5421 s) (sr_d5433 s) (sr_dedt s) (sr_del1 s) (sr_del2 s) (sr_del3 s) (sr_didt s) (sr_dmdt s) (sr_dnodt s) (sr_domdt s) (sr_e3 s) (sr_ee2 s) (sr_peo s) (sr_pgho s) (sr_pho s) (sr_pinco s) (sr_plo s) (sr_se2 s) (sr_se3 s) (sr_sgh2 s) (sr_sgh3 s) (sr_sgh4 s) (sr_sh2 s) (sr_sh3 s) (sr_si2 s) (sr_si3 s) (sr_sl2 s) (sr_sl3 s) (sr_sl4 s) (sr_gsto s) (sr_xfact s) (sr_xgh2 s) (sr_xgh3 s) (sr_xgh4 s) (sr_xh2 s) (sr_xh3 s) (sr_xi2 s) (sr_xi3 s) (sr_xl2 s) (sr_xl3 s) (sr_xl4 s) (sr_xlamo s) (sr_zmol s) (sr_zmos s) (sr_atime s) (sr_xli s) (sr_xni s).
Definition set_method v (s : Satrec) : Satrec :=
  MkSatrec (sr_name s) (sr_init s) (sr_operationmode s) (sr_error s) (sr_satnum s) (sr_epochyr s) (sr_epochdays s) (sr_ndot s) (sr_nddot s) (sr_bstar s) (sr_inclo s) (sr_nodeo s) (sr_ecco s) (sr_mo s) (sr_no s) (sr_a s) (sr_argpo s) (sr_alta s) (sr_altp s) (sr_jdsatepoch s) (sr_isimp s) v (sr_aycof s) (sr_con41 s) (sr_cc1 s) (sr_cc4 s) (sr_cc5 s) (sr_d2 s) (sr_d3 s) (sr_d4 s) (sr_delmo s) (sr_eta s) (sr_argpdot s) (sr_omgcof s) (sr_sinmao s) (sr_t s) (sr_t2cof s) (sr_t3cof s) (sr_t4cof s) (sr_t5cof s) (sr_x1mth2 s) (sr_x7thm1 s) (sr_mdot s) (sr_nodedot s) (sr_xlcof s) (sr_xmcof s) (sr_nodecf s) (sr_irez s) (sr_d2201 s) (sr_d2211 s) (sr_d3210 s) (sr_d3222 s) (sr_d4410 s) (sr_d4422 s) (sr_d5220 s) (sr_d5232 s) (sr_d5421 s) (sr_d5433 s) (sr_dedt s) (sr_del1 s) (sr_del2 s) (sr_del3 s) (sr_didt s) (sr_dmdt s) (sr_dnodt s) (sr_domdt s) (sr_e3 s) (sr_ee2 s) (sr_peo s) (sr_pgho s) (sr_pho s) (sr_pinco s) (sr_plo s) (sr_se2 s) (sr_se3 s) (sr_sgh2 s) (sr_sgh3 s) (sr_sgh4 s) (sr_sh2 s) (sr_sh3 s) (sr_si2 s) (sr_si3 s) (sr_sl2 s) (sr_sl3 s) (sr_sl4 s) (sr_gsto s) (sr_xfact s) (sr_xgh2 s) (sr_xgh3 s) (sr_xgh4 s) (sr_xh2 s) (sr_xh3 s) (sr_xi2 s) (sr_xi3 s) (sr_xl2 s) (sr_xl3 s) (sr_xl4 s) (sr_xlamo s) (sr_zmol s) (sr_zmos s) (sr_atime s) (sr_xli s) (sr_xni s).
Definition set_aycof v (s : Satrec) : Satrec :=
  MkSatrec (sr_name s) (sr_init s) (sr_operationmode s) (sr_error s) (sr_satnum s) (sr_epochyr s) (sr_epochdays s) (sr_ndot s) (sr_nddot s) (sr_bstar s) (sr_inclo s) (sr_nodeo s) (sr_ecco s) (sr_mo s) (sr_no s) (sr_a s) (sr_argpo s) (sr_alta s) (sr_altp s) (sr_jdsatepoch s) (sr_isimp s) (sr_method s) v (sr_con41 s) (sr_cc1 s) (sr_cc4 s) (sr_cc5 s) (sr_d2 s) (sr_d3 s) (sr_d4 s) (sr_delmo s) (sr_eta s) (sr_argpdot s) (sr_omgcof s) (sr_sinmao s) (sr_t s) (sr_t2cof s) (sr_t3cof s) (sr_t4cof s) (sr_t5cof s) (sr_x1mth2 s) (sr_x7thm1 s) (sr_mdot s) (sr_nodedot s) (sr_xlcof s) (sr_xmcof s) (sr_nodecf s) (sr_irez s) (sr_d2201 s) (sr_d2211 s) (sr_d3210 s) (sr_d3222 s) (sr_d4410 s) (sr_d4422 s) (sr_d5220 s) (sr_d5232 s) (sr_d5421 s) (sr_d5433 s) (sr_dedt s) (sr_del1 s) (sr_del2 s) (sr_del3 s) (sr_didt s) (sr_dmdt s) (sr_dnodt s) (sr_domdt s) (sr_e3 s) (sr_ee2 s) (sr_peo s) (sr_pgho s) (sr_pho s) (sr_pinco s) (sr_plo s) (sr_se2 s) (sr_se3 s) (sr_sgh2 s) (sr_sgh3 s) (sr_sgh4 s) (sr_sh2 s) (sr_sh3 s) (sr_si2 s) (sr_si3 s) (sr_sl2 s) (sr_sl3 s) (sr_sl4 s) (sr_gsto s) (sr_xfact s) (sr_xgh2 s) (sr_xgh3 s) (sr_xgh4 s) (sr_xh2 s) (sr_xh3 s) (sr_xi2 s) (sr_xi3 s) (sr_xl2 s) (sr_xl3 s) (sr_xl4 s) (sr_xlamo s) (sr_zmol s) (sr_zmos s) (sr_atime s) (sr_xli s) (sr_xni s).
Definition set_con41 v (s : Satrec) : Satrec :=
  MkSatrec (sr_name s) (sr_init s) (sr_operationmode s) (sr_error s) (sr_satnum s) (sr_epochyr s) (sr_epochdays s) (sr_ndot s) (sr_nddot s) (sr_bstar s) (sr_inclo s) (sr_nodeo s) (sr_ecco s) (sr_mo s) (sr_no s) (sr_a s) (sr_argpo s) (sr_alta s) (sr_altp s) (sr_jdsatepoch s) (sr_isimp s) (sr_method s) (sr_aycof s) v (sr_cc1 s) (sr_cc4 s) (sr_cc5 s) (sr_d2 s) (sr_d3 s) (sr_d4 s) (sr_delmo s) (sr_eta s) (sr_argpdot s) (sr_omgcof s) (sr_sinmao s) (sr_t s) (sr_t2cof s) (sr_t3cof s) (sr_t4cof s) (sr_t5cof s) (sr_x1mth2 s) (sr_x7thm1 s) (sr_mdot s) (sr_nodedot s) (sr_xlcof s) (sr_xmcof s) (sr_nodecf s) (sr_irez s) (sr_d2201 s) (sr_d2211 s) (sr_d3210 s) (sr_d3222 s) (sr_d4410 s) (sr_d4422 s) (sr_d5220 s) (sr_d5232 s) (sr_d5421 s) (sr_d5433 s) (sr_dedt s) (sr_del1 s) (sr_del2 s) (sr_del3 s) (sr_didt s) (sr_dmdt s) (sr_dnodt s) (sr_domdt s) (sr_e3 s) (sr_ee2 s) (sr_peo s) (sr_pgho s) (sr_pho s) (sr_pinco s) (sr_plo s) (sr_se2 s) (sr_se3 s) (sr_sgh2 s) (sr_sgh3 s) (sr_sgh4 s) (sr_sh2 s) (sr_sh3 s) (sr_si2 s) (sr_si3 s) (sr_sl2 s) (sr_sl3 s) (sr_sl4 s) (sr_gsto s) (sr_xfact s) (sr_xgh2 s) (sr_xgh3 s) (sr_xgh4 s) (sr_xh2 s) (sr_xh3 s) (sr_xi2 s) (sr_xi3 s) (sr_xl2 s) (sr_xl3 s) (sr_xl4 s) (sr_xlamo s) (sr_zmol s) (sr_zmos s) (sr_atime s) (sr_xli s) (sr_xni s).
Definition set_cc1 v (s : Satrec) : Satrec :=
  MkSatrec (sr_name s) (sr_init s) (sr_operationmode s) (sr_error s) (sr_satnum s) (sr_epochyr s) (sr_epochdays s) (sr_ndot s) (sr_nddot s) (sr_bstar s) (sr_inclo s) (sr_nodeo s) (sr_ecco s) (sr_mo s) (sr_no s) (sr_a s) (sr_argpo s) (sr_alta s) (sr_altp s) (sr_jdsatepoch s) (sr_isimp s) (sr_method s) (sr_aycof s) (sr_con41 s) v (sr_cc4 s) (sr_cc5 s) (sr_d2 s) (sr_d3 s) (sr_d4 s) (sr_delmo s) (sr_eta s) (sr_argpdot s) (sr_omgcof s) (sr_sinmao s) (sr_t s) (sr_t2cof s) (sr_t3cof s) (sr_t4cof s) (sr_t5cof s) (sr_x1mth2 s) (sr_x7thm1 s) (sr_mdot s) (sr_nodedot s) (sr_xlcof s) (sr_xmcof s) (sr_nodecf s) (sr_irez s) (sr_d2201 s) (sr_d2211 s) (sr_d3210 s) (sr_d3222 s) (sr_d4410 s) (sr_d4422 s) (sr_d5220 s) (sr_d5232 s) (sr_d5421 s) (sr_d5433 s) (sr_dedt s) (sr_del1 s) (sr_del2 s) (sr_del3 s) (sr_didt s) (sr_dmdt s) (sr_dnodt s) (sr_domdt s) (sr_e3 s) (sr_ee2 s) (sr_peo s) (sr_pgho s) (sr_pho s) (sr_pinco s) (sr_plo s) (sr_se2 s) (sr_se3 s) (sr_sgh2 s) (sr_sgh3 s) (sr_sgh4 s) (sr_sh2 s) (sr_sh3 s) (sr_si2 s) (sr_si3 s) (sr_sl2 s) (sr_sl3 s) (sr_sl4 s) (sr_gsto s) (sr_xfact s) (sr_xgh2 s) (sr_xgh3 s) (sr_xgh4 s) (sr_xh2 s) (sr_xh3 s) (sr_xi2 s) (sr_xi3 s) (sr_xl2 s) (sr_xl3 s) (sr_xl4 s) (sr_xlamo s) (sr_zmol s) (sr_zmos s) (sr_atime s) (sr_xli s) (sr_xni s).
Definition set_cc4 v (s : Satrec) : Satrec :=
  MkSatrec (sr_name s) (sr_init s) (sr_operationmode s) (sr_error s) (sr_satnum s) (sr_epochyr s) (sr_epochdays s) (sr_ndot s) (sr_nddot s) (sr_bstar s) (sr_inclo s) (sr_nodeo s) (sr_ecco s) (sr_mo s) (sr_no s) (sr_a s) (sr_argpo s) (sr_alta s) (sr_altp s) (sr_jdsatepoch s) (sr_isimp s) (sr_method s) (sr_aycof s) (sr_con41 s) (sr_cc1 s) v (sr_cc5 s) (sr_d2 s) (sr_d3 s) (sr_d4 s) (sr_delmo s) (sr_eta s) (sr_argpdot s) (sr_omgcof s) (sr_sinmao s) (sr_t s) (sr_t2cof s) (sr_t3cof s) (sr_t4cof s) (sr_t5cof s) (sr_x1mth2 s) (sr_x7thm1 s) (sr_mdot s) (sr_nodedot s) (sr_xlcof s) (sr_xmcof s) (sr_nodecf s) (sr_irez s) (sr_d2201 s) (sr_d2211 s) (sr_d3210 s) (sr_d3222 s) (sr_d4410 s) (sr_d4422 s) (sr_d5220 s) (sr_d5232 s) (sr_d5421 s) (sr_d5433 s) (sr_dedt s) (sr_del1 s) (sr_del2 s) (sr_del3 s) (sr_didt s) (sr_dmdt s) (sr_dnodt s) (sr_domdt s) (sr_e3 s) (sr_ee2 s) (sr_peo s) (sr_pgho s) (sr_pho s) (sr_pinco s) (sr_plo s) (sr_se2 s) (sr_se3 s) (sr_sgh2 s) (sr_sgh3 s) (sr_sgh4 s) (sr_sh2 s) (sr_sh3 s) (sr_si2 s) (sr_si3 s) (sr_sl2 s) (sr_sl3 s) (sr_sl4 s) (sr_gsto s) (sr_xfact s) (sr_xgh2 s) (sr_xgh3 s) (sr_xgh4 s) (sr_xh2 s) (sr_xh3 s) (sr_xi2 s) (sr_xi3 s) (sr_xl2 s) (sr_xl3 s) (sr_xl4 s) (sr_xlamo s) (sr_zmol s) (sr_zmos s) (sr_atime s) (sr_xli s) (sr_xni s).
Definition set_cc5 v (s : Satrec) : Satrec :=
  MkSatrec (sr_name s) (sr_init s) (sr_operationmode s) (sr_error s) (sr_satnum s) (sr_epochyr s) (sr_epochdays s) (sr_ndot s) (sr_nddot s) (sr_bstar s) (sr_inclo s) (sr_nodeo s) (sr_ecco s) (sr_mo s) (sr_no s) (sr_a s) (sr_argpo s) (sr_alta s) (sr_altp s) (sr_jdsatepoch s) (sr_isimp s) (sr_method s) (sr_aycof s) (sr_con41 s) (sr_cc1 s) (sr_cc4 s) v (sr_d2 s) (sr_d3 s) (sr_d4 s) (sr_delmo s) (sr_eta s) (sr_argpdot s) (sr_omgcof s) (sr_sinmao s) (sr_t s) (sr_t2cof s) (sr_t3cof s) (sr_t4cof s) (sr_t5cof s) (sr_x1mth2 s) (sr_x7thm1 s) (sr_mdot s) (sr_nodedot s) (sr_xlcof s) (sr_xmcof s) (sr_nodecf s) (sr_irez s) (sr_d2201 s) (sr_d2211 s) (sr_d3210 s) (sr_d3222 s) (sr_d4410 s) (sr_d4422 s) (sr_d5220 s) (sr_d5232 s) (sr_d5421 s) (sr_d5433 s) (sr_dedt s) (sr_del1 s) (sr_del2 s) (sr_del3 s) (sr_didt s) (sr_dmdt s) (sr_dnodt s) (sr_domdt s) (sr_e3 s) (sr_ee2 s) (sr_peo s) (sr_pgho s) (sr_pho s) (sr_pinco s) (sr_plo s) (sr_se2 s) (sr_se3 s) (sr_sgh2 s) (sr_sgh3 s) (sr_sgh4 s) (sr_sh2 s) (sr_sh3 s) (sr_si2 s) (sr_si3 s) (sr_sl2 s) (sr_sl3 s) (sr_sl4 s) (sr_gsto s) (sr_xfact s) (sr_xgh2 s) (sr_xgh3 s) (sr_xgh4 s) (sr_xh2 s) (sr_xh3 s) (sr_xi2 s) (sr_xi3 s) (sr_xl2 s) (sr_xl3 s) (sr_xl4 s) (sr_xlamo s) (sr_zmol s) (sr_zmos s) (sr_atime s) (sr_xli s) (sr_xni s).
Definition set_d2 v (s : Satrec) : Satrec :=
  MkSatrec (sr_name s) (sr_init s) (sr_operationmode s) (sr_error s) (sr_satnum s) (sr_epochyr s) (sr_epochdays s) (sr_ndot s) (sr_nddot s) (sr_bstar s) (sr_inclo s) (sr_nodeo s) (sr_ecco s) (sr_mo s) (sr_no s) (sr_a s) (sr_argpo s) (sr_alta s) (sr_altp s) (sr_jdsatepoch s) (sr_isimp s) (sr_method s) (sr_aycof s) (sr_con41 s) (sr_cc1 s) (sr_cc4 s) (sr_cc5 s) v (sr_d3 s) (sr_d4 s) (sr_delmo s) (sr_eta s) (sr_argpdot s) (sr_omgcof s) (sr_sinmao s) (sr_t s) (sr_t2cof s) (sr_t3cof s) (sr_t4cof s) (sr_t5cof s) (sr_x1mth2 s) (sr_x7thm1 s) (sr_mdot s) (sr_nodedot s) (sr_xlcof s) (sr_xmcof s) (sr_nodecf s) (sr_irez s) (sr_d2201 s) (sr_d2211 s) (sr_d3210 s) (sr_d3222 s) (sr_d4410 s) (sr_d4422 s) (sr_d5220 s) (sr_d5232 s) (sr_d5421 s) (sr_d5433 s) (sr_dedt s) (sr_del1 s) (sr_del2 s) (sr_del3 s) (sr_didt s) (sr_dmdt s) (sr_dnodt s) (sr_domdt s) (sr_e3 s) (sr_ee2 s) (sr_peo s) (sr_pgho s) (sr_pho s) (sr_pinco s) (sr_plo s) (sr_se2 s) (sr_se3 s) (sr_sgh2 s) (sr_sgh3 s) (sr_sgh4 s) (sr_sh2 s) (sr_sh3 s) (sr_si2 s) (sr_si3 s) (sr_sl2 s) (sr_sl3 s) (sr_sl4 s) (sr_gsto s) (sr_xfact s) (sr_xgh2 s) (sr_xgh3 s) (sr_xgh4 s) (sr_xh2 s) (sr_xh3 s) (sr_xi2 s) (sr_xi3 s) (sr_xl2 s) (sr_xl3 s) (sr_xl4 s) (sr_xlamo s) (sr_zmol s) (sr_zmos s) (sr_atime s) (sr_xli s) (sr_xni s).
Definition set_d3 v (s : Satrec) : Satrec :=
  MkSatrec (sr_name s) (sr_init s) (sr_operationmode s) (sr_error s) (sr_satnum s) (sr_epochyr s) (sr_epochdays s) (sr_ndot s) (sr_nddot s) (sr_bstar s) (sr_inclo s) (sr_nodeo s) (sr_ecco s) (sr_mo s) (sr_no s) (sr_a s) (sr_argpo s) (sr_alta s) (sr_altp s) (sr_jdsatepoch s) (sr_isimp s) (sr_method s) (sr_aycof s) (sr_con41 s) (sr_cc1 s) (sr_cc4 s) (sr_cc5 s) (sr_d2 s) v (sr_d4 s) (sr_delmo s) (sr_eta s) (sr_argpdot s) (sr_omgcof s) (sr_sinmao s) (sr_t s) (sr_t2cof s) (sr_t3cof s) (sr_t4cof s) (sr_t5cof s) (sr_x1mth2 s) (sr_x7thm1 s) (sr_mdot s) (sr_nodedot s) (sr_xlcof s) (sr_xmcof s) (sr_nodecf s) (sr_irez s) (sr_d2201 s) (sr_d2211 s) (sr_d3210 s) (sr_d3222 s) (sr_d4410 s) (sr_d4422 s) (sr_d5220 s) (sr_d5232 s) (sr_d5421 s) (sr_d5433 s) (sr_dedt s) (sr_del1 s) (sr_del2 s) (sr_del3 s) (sr_didt s) (sr_dmdt s) (sr_dnodt s) (sr_domdt s) (sr_e3 s) (sr_ee2 s) (sr_peo s) (sr_pgho s) (sr_pho s) (sr_pinco s) (sr_plo s) (sr_se2 s) (sr_se3 s) (sr_sgh2 s) (sr_sgh3 s) (sr_sgh4 s) (sr_sh2 s) (sr_sh3 s) (sr_si2 s) (sr_si3 s) (sr_sl2 s) (sr_sl3 s) (sr_sl4 s) (sr_gsto s) (sr_xfact s) (sr_xgh2 s) (sr_xgh3 s) (sr_xgh4 s) (sr_xh2 s) (sr_xh3 s) (sr_xi2 s) (sr_xi3 s) (sr_xl2 s) (sr_xl3 s) (sr_xl4 s) (sr_xlamo s) (sr_zmol s) (sr_zmos s) (sr_atime s) (sr_xli s) (sr_xni s).
Definition set_d4 v (s : Satrec) : Satrec :=
  MkSatrec (sr_name s) (sr_init s) (sr_operationmode s) (sr_error s) (sr_satnum s) (sr_epochyr s) (sr_epochdays s) (sr_ndot s) (sr_nddot s) (sr_bstar s) (sr_inclo s) (sr_nodeo s) (sr_ecco s) (sr_mo s) (sr_no s) (sr_a s) (sr_argpo s) (sr_alta s) (sr_altp s) (sr_jdsatepoch s) (sr_isimp s) (sr_method s) (sr_aycof s) (sr_con41 s) (sr_cc1 s) (sr_cc4 s) (sr_cc5 s) (sr_d2 s) (sr_d3 s) v (sr_delmo s) (sr_eta s) (sr_argpdot s) (sr_omgcof s) (sr_sinmao s) (sr_t s) (sr_t2cof s) (sr_t3cof s) (sr_t4cof s) (sr_t5cof s) (sr_x1mth2 s) (sr_x7thm1 s) (sr_mdot s) (sr_nodedot s) (sr_xlcof s) (sr_xmcof s) (sr_nodecf s) (sr_irez s) (sr_d2201 s) (sr_d2211 s) (sr_d3210 s) (sr_d3222 s) (sr_d4410 s) (sr_d4422 s) (sr_d5220 s) (sr_d5232 s) (sr_d5421 s) (sr_d5433 s) (sr_dedt s) (sr_del1 s) (sr_del2 s) (sr_del3 s) (sr_didt s) (sr_dmdt s) (sr_dnodt s) (sr_domdt s) (sr_e3 s) (sr_ee2 s) (sr_peo s) (sr_pgho s) (sr_pho s) (sr_pinco s) (sr_plo s) (sr_se2 s) (sr_se3 s) (sr_sgh2 s) (sr_sgh3 s) (sr_sgh4 s) (sr_sh2 s) (sr_sh3 s) (sr_si2 s) (sr_si3 s) (sr_sl2 s) (sr_sl3 s) (sr_sl4 s) (sr_gsto s) (sr_xfact s) (sr_xgh2 s) (sr_xgh3 s) (sr_xgh4 s) (sr_xh2 s) (sr_xh3 s) (sr_xi2 s) (sr_xi3 s) (sr_xl2 s) (sr_xl3 s) (sr_xl4 s) (sr_xlamo s) (sr_zmol s) (sr_zmos s) (sr_atime s) (sr_xli s) (sr_xni s).
Definition set_delmo v (s : Satrec) : Satrec :=
  MkSatrec (sr_name s) (sr_init s) (sr_operationmode s) (sr_error s) (sr_satnum s) (sr_epochyr s) (sr_epochdays s) (sr_ndot s) (sr_nddot s) (sr_bstar s) (sr_inclo s) (sr_nodeo s) (sr_ecco s) (sr_mo s) (sr_no s) (sr_a s) (sr_argpo s) (sr_alta s) (sr_altp s) (sr_jdsatepoch s) (sr_isimp s) (sr_method s) (sr_aycof s) (sr_con41 s) (sr_cc1 s) (sr_cc4 s) (sr_cc5 s) (sr_d2 s) (sr_d3 s) (sr_d4 s) v (sr_eta s) (sr_argpdot s) (sr_omgcof s) (sr_sinmao s) (sr_t s) (sr_t2cof s) (sr_t3cof s) (sr_t4cof s) (sr_t5cof s) (sr_x1mth2 s) (sr_x7thm1 s) (sr_mdot s) (sr_nodedot s) (sr_xlcof s) (sr_xmcof s) (sr_nodecf s) (sr_irez s) (sr_d2201 s) (sr_d2211 s) (sr_d3210 s) (sr_d3222 s) (sr_d4410 s) (sr_d4422 s) (sr_d5220 s) (sr_d5232 s) (sr_d5421 s) (sr_d5433 s) (sr_dedt s) (sr_del1 s) (sr_del2 s) (sr_del3 s) (sr_didt s) (sr_dmdt s) (sr_dnodt s) (sr_domdt s) (sr_e3 s) (sr_ee2 s) (sr_peo s) (sr_pgho s) (sr_pho s) (sr_pinco s) (sr_plo s) (sr_se2 s) (sr_se3 s) (sr_sgh2 s) (sr_sgh3 s) (sr_sgh4 s) (sr_sh2 s) (sr_sh3 s) (sr_si2 s) (sr_si3 s) (sr_sl2 s) (sr_sl3 s) (sr_sl4 s) (sr_gsto s) (sr_xfact s) (sr_xgh2 s) (sr_xgh3 s) (sr_xgh4 s) (sr_xh2 s) (sr_xh3 s) (sr_xi2 s) (sr_xi3 s) (sr_xl2 s) (sr_xl3 s) (sr_xl4 s) (sr_xlamo s) (sr_zmol s) (sr_zmos s) (sr_atime s) (sr_xli s) (sr_xni s).
Definition set_eta v (s : Satrec) : Satrec :=
  MkSatrec (sr_name s) (sr_init s) (sr_operationmode s) (sr_error s) (sr_satnum s) (sr_epochyr s) (sr_epochdays s) (sr_ndot s) (sr_nddot s) (sr_bstar s) (sr_inclo s) (sr_nodeo s) (sr_ecco s) (sr_mo s) (sr_no s) (sr_a s) (sr_argpo s) (sr_alta s) (sr_altp s) (sr_jdsatepoch s) (sr_isimp s) (sr_method s) (sr_aycof s) (sr_con41 s) (sr_cc1 s) (sr_cc4 s) (sr_cc5 s) (sr_d2 s) (sr_d3 s) (sr_d4 s) (sr_delmo s) v (sr_argpdot s) (sr_omgcof s) (sr_sinmao s) (sr_t s) (sr_t2cof s) (sr_t3cof s) (sr_t4cof s) (sr_t5cof s) (sr_x1mth2 s) (sr_x7thm1 s) (sr_mdot s) (sr_nodedot s) (sr_xlcof s) (sr_xmcof s) (sr_nodecf s) (sr_irez s) (sr_d2201 s) (sr_d2211 s) (sr_d3210 s) (sr_d3222 s) (sr_d4410 s) (sr_d4422 s) (sr_d5220 s) (sr_d5232 s) (sr_d5421 s) (sr_d5433 s) (sr_dedt s) (sr_del1 s) (sr_del2 s) (sr_del3 s) (sr_didt s) (sr_dmdt s) (sr_dnodt s) (sr_domdt s) (sr_e3 s) (sr_ee2 s) (sr_peo s) (sr_pgho s) (sr_pho s) (sr_pinco s) (sr_plo s) (sr_se2 s) (sr_se3 s) (sr_sgh2 s) (sr_sgh3 s) (sr_sgh4 s) (sr_sh2 s) (sr_sh3 s) (sr_si2 s) (sr_si3 s) (sr_sl2 s) (sr_sl3 s) (sr_sl4 s) (sr_gsto s) (sr_xfact s) (sr_xgh2 s) (sr_xgh3 s) (sr_xgh4 s) (sr_xh2 s) (sr_xh3 s) (sr_xi2 s) (sr_xi3 s) (sr_xl2 s) (sr_xl3 s) (sr_xl4 s) (sr_xlamo s) (sr_zmol s) (sr_zmos s) (sr_atime s) (sr_xli s) (sr_xni s).
Definition set_argpdot v (s : Satrec) : Satrec :=
  MkSatrec (sr_name s) (sr_init s) (sr_operationmode s) (sr_error s) (sr_satnum s) (sr_epochyr s) (sr_epochdays s) (sr_ndot s) (sr_nddot s) (sr_bstar s) (sr_inclo s) (sr_nodeo s) (sr_ecco s) (sr_mo s) (sr_no s) (sr_a s) (sr_argpo s) (sr_alta s) (sr_altp s) (sr_jdsatepoch s) (sr_isimp s) (sr_method s) (sr_aycof s) (sr_con41 s) (sr_cc1 s) (sr_cc4 s) (sr_cc5 s) (sr_d2 s) (sr_d3 s) (sr_d4 s) (sr_delmo s) (sr_eta s) v (sr_omgcof s) (sr_sinmao s) (sr_t s) (sr_t2cof s) (sr_t3cof s) (sr_t4cof s) (sr_t5cof s) (sr_x1mth2 s) (sr_x7thm1 s) (sr_mdot s) (sr_nodedot s) (sr_xlcof s) (sr_xmcof s) (sr_nodecf s) (sr_irez s) (sr_d2201 s) (sr_d2211 s) (sr_d3210 s) (sr_d3222 s) (sr_d4410 s) (sr_d4422 s) (sr_d5220 s) (sr_d5232 s) (sr_d5421 s) (sr_d5433 s) (sr_dedt s) (sr_del1 s) (sr_del2 s) (sr_del3 s) (sr_didt s) (sr_dmdt s) (sr_dnodt s) (sr_domdt s) (sr_e3 s) (sr_ee2 s) (sr_peo s) (sr_pgho s) (sr_pho s) (sr_pinco s) (sr_plo s) (sr_se2 s) (sr_se3 s) (sr_sgh2 s) (sr_sgh3 s) (sr_sgh4 s) (sr_sh2 s) (sr_sh3 s) (sr_si2 s) (sr_si3 s) (sr_sl2 s) (sr_sl3 s) (sr_sl4 s) (sr_gsto s) (sr_xfact s) (sr_xgh2 s) (sr_xgh3 s) (sr_xgh4 s) (sr_xh2 s) (sr_xh3 s) (sr_xi2 s) (sr_xi3 s) (sr_xl2 s) (sr_xl3 s) (sr_xl4 s) (sr_xlamo s) (sr_zmol s) (sr_zmos s) (sr_atime s) (sr_xli s) (sr_xni s).
Definition set_omgcof v (s : Satrec) : Satrec :=
  MkSatrec (sr_name s) (sr_init s) (sr_operationmode s) (sr_error s) (sr_satnum s) (sr_epochyr s) (sr_epochdays s) (sr_ndot s) (sr_nddot s) (sr_bstar s) (sr_inclo s) (sr_nodeo s) (sr_ecco s) (sr_mo s) (sr_no s) (sr_a s) (sr_argpo s) (sr_alta s) (sr_altp s) (sr_jdsatepoch s) (sr_isimp s) (sr_method s) (sr_aycof s) (sr_con41 s) (sr_cc1 s) (sr_cc4 s) (sr_cc5 s) (sr_d2 s) (sr_d3 s) (sr_d4 s) (sr_delmo s) (sr_eta s) (sr_argpdot s) v (sr_sinmao s) (sr_t s) (sr_t2cof s) (sr_t3cof s) (sr_t4cof s) (sr_t5cof s) (sr_x1mth2 s) (sr_x7thm1 s) (sr_mdot s) (sr_nodedot s) (sr_xlcof s) (sr_xmcof s) (sr_nodecf s) (sr_irez s) (sr_d2201 s) (sr_d2211 s) (sr_d3210 s) (sr_d3222 s) (sr_d4410 s) (sr_d4422 s) (sr_d5220 s) (sr_d5232 s) (sr_d5421 s) (sr_d5433 s) (sr_dedt s) (sr_del1 s) (sr_del2 s) (sr_del3 s) (sr_didt s) (sr_dmdt s) (sr_dnodt s) (sr_domdt s) (sr_e3 s) (sr_ee2 s) (sr_peo s) (sr_pgho s) (sr_pho s) (sr_pinco s) (sr_plo s) (sr_se2 s) (sr_se3 s) (sr_sgh2 s) (sr_sgh3 s) (sr_sgh4 s) (sr_sh2 s) (sr_sh3 s) (sr_si2 s) (sr_si3 s) (sr_sl2 s) (sr_sl3 s) (sr_sl4 s) (sr_gsto s) (sr_xfact s) (sr_xgh2 s) (sr_xgh3 s) (sr_xgh4 s) (sr_xh2 s) (sr_xh3 s) (sr_xi2 s) (sr_xi3 s) (sr_xl2 s) (sr_xl3 s) (sr_xl4 s) (sr_xlamo s) (sr_zmol s) (sr_zmos s) (sr_atime s) (sr_xli s) (sr_xni s).
Definition set_sinmao v (s : Satrec) : Satrec :=
  MkSatrec (sr_name s) (sr_init s) (sr_operationmode s) (sr_error s) (sr_satnum s) (sr_epochyr s) (sr_epochdays s) (sr_ndot s) (sr_nddot s) (sr_bstar s) (sr_inclo s) (sr_nodeo s) (sr_ecco s) (sr_mo s) (sr_no s) (sr_a s) (sr_argpo s) (sr_alta s) (sr_altp s) (sr_jdsatepoch s) (sr_isimp s) (sr_method s) (sr_aycof s) (sr_con41 s) (sr_cc1 s) (sr_cc4 s) (sr_cc5 s) (sr_d2 s) (sr_d3 s) (sr_d4 s) (sr_delmo s) (sr_eta s) (sr_argpdot s) (sr_omgcof s) v (sr_t s) (sr_t2cof s) (sr_t3cof s) (sr_t4cof s) (sr_t5cof s) (sr_x1mth2 s) (sr_x7thm1 s) (sr_mdot s) (sr_nodedot s) (sr_xlcof s) (sr_xmcof s) (sr_nodecf s) (sr_irez s) (sr_d2201 s) (sr_d2211 s) (sr_d3210 s) (sr_d3222 s) (sr_d4410 s) (sr_d4422 s) (sr_d5220 s) (sr_d5232 s) (sr_d5421 s) (sr_d5433 s) (sr_dedt s) (sr_del1 s) (sr_del2 s) (sr_del3 s) (sr_didt s) (sr_dmdt s) (sr_dnodt s) (sr_domdt s) (sr_e3 s) (sr_ee2 s) (sr_peo s) (sr_pgho s) (sr_pho s) (sr_pinco s) (sr_plo s) (sr_se2 s) (sr_se3 s) (sr_sgh2 s) (sr_sgh3 s) (sr_sgh4 s) (sr_sh2 s) (sr_sh3 s) (sr_si2 s) (sr_si3 s) (sr_sl2 s) (sr_sl3 s) (sr_sl4 s) (sr_gsto s) (sr_xfact s) (sr_xgh2 s) (sr_xgh3 s) (sr_xgh4 s) (sr_xh2 s) (sr_xh3 s) (sr_xi2 s) (sr_xi3 s) (sr_xl2 s) (sr_xl3 s) (sr_xl4 s) (sr_xlamo s) (sr_zmol s) (sr_zmos s) (sr_atime s) (sr_xli s) (sr_xni s).
Definition set_t v (s : Satrec) : Satrec :=
  MkSatrec (sr_name s) (sr_init s) (sr_operationmode s) (sr_error s) (sr_satnum s) (sr_epochyr s) (sr_epochdays s) (sr_ndot s) (sr_nddot s) (sr_bstar s) (sr_inclo s) (sr_nodeo s) (sr_ecco s) (sr_mo s) (sr_no s) (sr_a s) (sr_argpo s) (sr_alta s) (sr_altp s) (sr_jdsatepoch s) (sr_isimp s) (sr_method s) (sr_aycof s) (sr_con41 s) (sr_cc1 s) (sr_cc4 s) (sr_cc5 s) (sr_d2 s) (sr_d3 s) (sr_d4 s) (sr_delmo s) (sr_eta s) (sr_argpdot s) (sr_omgcof s) (sr_sinmao s) v (sr_t2cof s) (sr_t3cof s) (sr_t4cof s) (sr_t5cof s) (sr_x1mth2 s) (sr_x7thm1 s) (sr_mdot s) (sr_nodedot s) (sr_xlcof s) (sr_xmcof s) (sr_nodecf s) (sr_irez s) (sr_d2201 s) (sr_d2211 s) (sr_d3210 s) (sr_d3222 s) (sr_d4410 s) (sr_d4422 s) (sr_d5220 s) (sr_d5232 s) (sr_d5421 s) (sr_d5433 s) (sr_dedt s) (sr_del1 s) (sr_del2 s) (sr_del3 s) (sr_didt s) (sr_dmdt s) (sr_dnodt s) (sr_domdt s) (sr_e3 s) (sr_ee2 s) (sr_peo s) (sr_pgho s) (sr_pho s) (sr_pinco s) (sr_plo s) (sr_se2 s) (sr_se3 s) (sr_sgh2 s) (sr_sgh3 s) (sr_sgh4 s) (sr_sh2 s) (sr_sh3 s) (sr_si2 s) (sr_si3 s) (sr_sl2 s) (sr_sl3 s) (sr_sl4 s) (sr_gsto s) (sr_xfact s) (sr_xgh2 s) (sr_xgh3 s) (sr_xgh4 s) (sr_xh2 s) (sr_xh3 s) (sr_xi2 s) (sr_xi3 s) (sr_xl2 s) (sr_xl3 s) (sr_xl4 s) (sr_xlamo s) (sr_zmol s) (sr_zmos s) (sr_atime s) (sr_xli s) (sr_xni s).
Definition set_t2cof v (s : Satrec) : Satrec :=
  MkSatrec (sr_name s) (sr_init s) (sr_operationmode s) (sr_error s) (sr_satnum s) (sr_epochyr s) (sr_epochdays s) (sr_ndot s) (sr_nddot s) (sr_bstar s) (sr_inclo s) (sr_nodeo s) (sr_ecco s) (sr_mo s) (sr_no s) (sr_a s) (sr_argpo s) (sr_alta s) (sr_altp s) (sr_jdsatepoch s) (sr_isimp s) (sr_method s) (sr_aycof s) (sr_con41 s) (sr_cc1 s) (sr_cc4 s) (sr_cc5 s) (sr_d2 s) (sr_d3 s) (sr_d4 s) (sr_delmo s) (sr_eta s) (sr_argpdot s) (sr_omgcof s) (sr_sinmao s) (sr_t s) v (sr_t3cof s) (sr_t4cof s) (sr_t5cof s) (sr_x1mth2 s) (sr_x7thm1 s) (sr_mdot s) (sr_nodedot s) (sr_xlcof s) (sr_xmcof s) (sr_nodecf s) (sr_irez s) (sr_d2201 s) (sr_d2211 s) (sr_d3210 s) (sr_d3222 s) (sr_d4410 s) (sr_d4422 s) (sr_d5220 s) (sr_d5232 s) (sr_d5421 s) (sr_d5433 s) (sr_dedt s) (sr_del1 s) (sr_del2 s) (sr_del3 s) (sr_didt s) (sr_dmdt s) (sr_dnodt s) (sr_domdt s) (sr_e3 s) (sr_ee2 s) (sr_peo s) (sr_pgho s) (sr_pho s) (sr_pinco s) (sr_plo s) (sr_se2 s) (sr_se3 s) (sr_sgh2 s) (sr_sgh3 s) (sr_sgh4 s) (sr_sh2 s) (sr_sh3 s) (sr_si2 s) (sr_si3 s) (sr_sl2 s) (sr_sl3 s) (sr_sl4 s) (sr_gsto s) (sr_xfact s) (sr_xgh2 s) (sr_xgh3 s) (sr_xgh4 s) (sr_xh2 s) (sr_xh3 s) (sr_xi2 s) (sr_xi3 s) (sr_xl2 s) (sr_xl3 s) (sr_xl4 s) (sr_xlamo s) (sr_zmol s) (sr_zmos s) (sr_atime s) (sr_xli s) (sr_xni s).
Definition set_t3cof v (s : Satrec) : Satrec :=
  MkSatrec (sr_name s) (sr_init s) (sr_operationmode s) (sr_error s) (sr_satnum s) (sr_epochyr s) (sr_epochdays s) (sr_ndot s) (sr_nddot s) (sr_bstar s) (sr_inclo s) (sr_nodeo s) (sr_ecco s) (sr_mo s) (sr_no s) (sr_a s) (sr_argpo s) (sr_alta s) (sr_altp s) (sr_jdsatepoch s) (sr_isimp s) (sr_method s) (sr_aycof s) (sr_con41 s) (sr_cc1 s) (sr_cc4 s) (sr_cc5 s) (sr_d2 s) (sr_d3 s) (sr_d4 s) (sr_delmo s) (sr_eta s) (sr_argpdot s) (sr_omgcof s) (sr_sinmao s) (sr_t s) (sr_t2cof s) v (sr_t4cof s) (sr_t5cof s) (sr_x1mth2 s) (sr_x7thm1 s) (sr_mdot s) (sr_nodedot s) (sr_xlcof s) (sr_xmcof s) (sr_nodecf s) (sr_irez s) (sr_d2201 s) (sr_d2211 s) (sr_d3210 s) (sr_d3222 s) (sr_d4410 s) (sr_d4422 s) (sr_d5220 s) (sr_d5232 s) (sr_d5421 s) (sr_d5433 s) (sr_dedt s) (sr_del1 s) (sr_del2 s) (sr_del3 s) (sr_didt s) (sr_dmdt s) (sr_dnodt s) (sr_domdt s) (sr_e3 s) (sr_ee2 s) (sr_peo s) (sr_pgho s) (sr_pho s) (sr_pinco s) (sr_plo s) (sr_se2 s) (sr_se3 s) (sr_sgh2 s) (sr_sgh3 s) (sr_sgh4 s) (sr_sh2 s) (sr_sh3 s) (sr_si2 s) (sr_si3 s) (sr_sl2 s) (sr_sl3 s) (sr_sl4 s) (sr_gsto s) (sr_xfact s) (sr_xgh2 s) (sr_xgh3 s) (sr_xgh4 s) (sr_xh2 s) (sr_xh3 s) (sr_xi2 s) (sr_xi3 s) (sr_xl2 s) (sr_xl3 s) (sr_xl4 s) (sr_xlamo s) (sr_zmol s) (sr_zmos s) (sr_atime s) (sr_xli s) (sr_xni s).
Definition set_t4cof v (s : Satrec) : Satrec :=
  MkSatrec (sr_name s) (sr_init s) (sr_operationmode s) (sr_error s) (sr_satnum s) (sr_epochyr s) (sr_epochdays s) (sr_ndot s) (sr_nddot s) (sr_bstar s) (sr_inclo s) (sr_nodeo s) (sr_ecco s) (sr_mo s) (sr_no s) (sr_a s) (sr_argpo s) (sr_alta s) (sr_altp s) (sr_jdsatepoch s) (sr_isimp s) (sr_method s) (sr_aycof s) (sr_con41 s) (sr_cc1 s) (sr_cc4 s) (sr_cc5 s) (sr_d2 s) (sr_d3 s) (sr_d4 s) (sr_delmo s) (sr_eta s) (sr_argpdot s) (sr_omgcof s) (sr_sinmao s) (sr_t s) (sr_t2cof s) (sr_t3cof s) v (sr_t5cof s) (sr_x1mth2 s) (sr_x7thm1 s) (sr_mdot s) (sr_nodedot s) (sr_xlcof s) (sr_xmcof s) (sr_nodecf s) (sr_irez s) (sr_d2201 s) (sr_d2211 s) (sr_d3210 s) (sr_d3222 s) (sr_d4410 s) (sr_d4422 s) (sr_d5220 s) (sr_d5232 s) (sr_d5421 s) (sr_d5433 s) (sr_dedt s) (sr_del1 s) (sr_del2 s) (sr_del3 s) (sr_didt s) (sr_dmdt s) (sr_dnodt s) (sr_domdt s) (sr_e3 s) (sr_ee2 s) (sr_peo s) (sr_pgho s) (sr_pho s) (sr_pinco s) (sr_plo s) (sr_se2 s) (sr_se3 s) (sr_sgh2 s) (sr_sgh3 s) (sr_sgh4 s) (sr_sh2 s) (sr_sh3 s) (sr_si2 s) (sr_si3 s) (sr_sl2 s) (sr_sl3 s) (sr_sl4 s) (sr_gsto s) (sr_xfact s) (sr_xgh2 s) (sr_xgh3 s) (sr_xgh4 s) (sr_xh2 s) (sr_xh3 s) (sr_xi2 s) (sr_xi3 s) (sr_xl2 s) (sr_xl3 s) (sr_xl4 s) (sr_xlamo s) (sr_zmol s) (sr_zmos s) (sr_atime s) (sr_xli s) (sr_xni s).
Definition set_t5cof v (s : Satrec) : Satrec :=
  MkSatrec (sr_name s) (sr_init s) (sr_operationmode s) (sr_error s) (sr_satnum s) (sr_epochyr s) (sr_epochdays s) (sr_ndot s) (sr_nddot s) (sr_bstar s) (sr_inclo s) (sr_nodeo s) (sr_ecco s) (sr_mo s) (sr_no s) (sr_a s) (sr_argpo s) (sr_alta s) (sr_altp s) (sr_jdsatepoch s) (sr_isimp s) (sr_method s) (sr_aycof s) (sr_con41 s) (sr_cc1 s) (sr_cc4 s) (sr_cc5 s) (sr_d2 s) (sr_d3 s) (sr_d4 s) (sr_delmo s) (sr_eta s) (sr_argpdot s) (sr_omgcof s) (sr_sinmao s) (sr_t s) (sr_t2cof s) (sr_t3cof s) (sr_t4cof s) v (sr_x1mth2 s) (sr_x7thm1 s) (sr_mdot s) (sr_nodedot s) (sr_xlcof s) (sr_xmcof s) (sr_nodecf s) (sr_irez s) (sr_d2201 s) (sr_d2211 s) (sr_d3210 s) (sr_d3222 s) (sr_d4410 s) (sr_d4422 s) (sr_d5220 s) (sr_d5232 s) (sr_d5421 s) (sr_d5433 s) (sr_dedt s) (sr_del1 s) (sr_del2 s) (sr_del3 s) (sr_didt s) (sr_dmdt s) (sr_dnodt s) (sr_domdt s) (sr_e3 s) (sr_ee2 s) (sr_peo s) (sr_pgho s) (sr_pho s) (sr_pinco s) (sr_plo s) (sr_se2 s) (sr_se3 s) (sr_sgh2 s) (sr_sgh3 s) (sr_sgh4 s) (sr_sh2 s) (sr_sh3 s) (sr_si2 s) (sr_si3 s) (sr_sl2 s) (sr_sl3 s) (sr_sl4 s) (sr_gsto s) (sr_xfact s) (sr_xgh2 s) (sr_xgh3 s) (sr_xgh4 s) (sr_xh2 s) (sr_xh3 s) (sr_xi2 s) (sr_xi3 s) (sr_xl2 s) (sr_xl3 s) (sr_xl4 s) (sr_xlamo s) (sr_zmol s) (sr_zmos s) (sr_atime s) (sr_xli s) (sr_xni s).
Definition set_x1mth2 v (s : Satrec) : Satrec :=
  MkSatrec (sr_name s) (sr_init s) (sr_operationmode s) (sr_error s) (sr_satnum s) (sr_epochyr s) (sr_epochdays s) (sr_ndot s) (sr_nddot s) (sr_bstar s) (sr_inclo s) (sr_nodeo s) (sr_ecco s) (sr_mo s) (sr_no s) (sr_a s) (sr_argpo s) (sr_alta s) (sr_altp s) (sr_jdsatepoch s) (sr_isimp s) (sr_method s) (sr_aycof s) (sr_con41 s) (sr_cc1 s) (sr_cc4 s) (sr_cc5 s) (sr_d2 s) (sr_d3 s) (sr_d4 s) (sr_delmo s) (sr_eta s) (sr_argpdot s) (sr_omgcof s) (sr_sinmao s) (sr_t s) (sr_t2cof s) (sr_t3cof s) (sr_t4cof s) (sr_t5cof s) v (sr_x7thm1 s) (sr_mdot s) (sr_nodedot s) (sr_xlcof s) (sr_xmcof s) (sr_nodecf s) (sr_irez s) (sr_d2201 s) (sr_d2211 s) (sr_d3210 s) (sr_d3222 s) (sr_d4410 s) (sr_d4422 s) (sr_d5220 s) (sr_d5232 s) (sr_d5421 s) (sr_d5433 s) (sr_dedt s) (sr_del1 s) (sr_del2 s) (sr_del3 s) (sr_didt s) (sr_dmdt s) (sr_dnodt s) (sr_domdt s) (sr_e3 s) (sr_ee2 s) (sr_peo s) (sr_pgho s) (sr_pho s) (sr_pinco s) (sr_plo s) (sr_se2 s) (sr_se3 s) (sr_sgh2 s) (sr_sgh3 s) (sr_sgh4 s) (sr_sh2 s) (sr_sh3 s) (sr_si2 s) (sr_si3 s) (sr_sl2 s) (sr_sl3 s) (sr_sl4 s) (sr_gsto s) (sr_xfact s) (sr_xgh2 s) (sr_xgh3 s) (sr_xgh4 s) (sr_xh2 s) (sr_xh3 s) (sr_xi2 s) (sr_xi3 s) (sr_xl2 s) (sr_xl3 s) (sr_xl4 s) (sr_xlamo s) (sr_zmol s) (sr_zmos s) (sr_atime s) (sr_xli s) (sr_xni s).
Definition set_x7thm1 v (s : Satrec) : Satrec :=
  MkSatrec (sr_name s) (sr_init s) (sr_operationmode s) (sr_error s) (sr_satnum s) (sr_epochyr s) (sr_epochdays s) (sr_ndot s) (sr_nddot s) (sr_bstar s) (sr_inclo s) (sr_nodeo s) (sr_ecco s) (sr_mo s) (sr_no s) (sr_a s) (sr_argpo s) (sr_alta s) (sr_altp s) (sr_jdsatepoch s) (sr_isimp s) (sr_method s) (sr_aycof s) (sr_con41 s) (sr_cc1 s) (sr_cc4 s) (sr_cc5 s) (sr_d2 s) (sr_d3 s) (sr_d4 s) (sr_delmo s) (sr_eta s) (sr_argpdot s) (sr_omgcof s) (sr_sinmao s) (sr_t s) (sr_t2cof s) (sr_t3cof s) (sr_t4cof s) (sr_t5cof s) (sr_x1mth2 s) v (sr_mdot s) (sr_nodedot s) (sr_xlcof s) (sr_xmcof s) (sr_nodecf s) (sr_irez s) (sr_d2201 s) (sr_d2211 s) (sr_d3210 s) (sr_d3222 s) (sr_d4410 s) (sr_d4422 s) (sr_d5220 s) (sr_d5232 s) (sr_d5421 s) (sr_d5433 s) (sr_dedt s) (sr_del1 s) (sr_del2 s) (sr_del3 s) (sr_didt s) (sr_dmdt s) (sr_dnodt s) (sr_domdt s) (sr_e3 s) (sr_ee2 s) (sr_peo s) (sr_pgho s) (sr_pho s) (sr_pinco s) (sr_plo s) (sr_se2 s) (sr_se3 s) (sr_sgh2 s) (sr_sgh3 s) (sr_sgh4 s) (sr_sh2 s) (sr_sh3 s) (sr_si2 s) (sr_si3 s) (sr_sl2 s) (sr_sl3 s) (sr_sl4 s) (sr_gsto s) (sr_xfact s) (sr_xgh2 s) (sr_xgh3 s) (sr_xgh4 s) (sr_xh2 s) (sr_xh3 s) (sr_xi2 s) (sr_xi3 s) (sr_xl2 s) (sr_xl3 s) (sr_xl4 s) (sr_xlamo s) (sr_zmol s) (sr_zmos s) (sr_atime s) (sr_xli s) (sr_xni s).
Definition set_mdot v (s : Satrec) : Satrec :=
  MkSatrec (sr_name s) (sr_init s) (sr_operationmode s) (sr_error s) (sr_satnum s) (sr_epochyr s) (sr_epochdays s) (sr_ndot s) (sr_nddot s) (sr_bstar s) (sr_inclo s) (sr_nodeo s) (sr_ecco s) (sr_mo s) (sr_no s) (sr_a s) (sr_argpo s) (sr_alta s) (sr_altp s) (sr_jdsatepoch s) (sr_isimp s) (sr_method s) (sr_aycof s) (sr_con41 s) (sr_cc1 s) (sr_cc4 s) (sr_cc5 s) (sr_d2 s) (sr_d3 s) (sr_d4 s) (sr_delmo s) (sr_eta s) (sr_argpdot s) (sr_omgcof s) (sr_sinmao s) (sr_t s) (sr_t2cof s) (sr_t3cof s) (sr_t4cof s) (sr_t5cof s) (sr_x1mth2 s) (sr_x7thm1 s) v (sr_nodedot s) (sr_xlcof s) (sr_xmcof s) (sr_nodecf s) (sr_irez s) (sr_d2201 s) (sr_d2211 s) (sr_d3210 s) (sr_d3222 s) (sr_d4410 s) (sr_d4422 s) (sr_d5220 s) (sr_d5232 s) (sr_d5421 s) (sr_d5433 s) (sr_dedt s) (sr_del1 s) (sr_del2 s) (sr_del3 s) (sr_didt s) (sr_dmdt s) (sr_dnodt s) (sr_domdt s) (sr_e3 s) (sr_ee2 s) (sr_peo s) (sr_pgho s) (sr_pho s) (sr_pinco s) (sr_plo s) (sr_se2 s) (sr_se3 s) (sr_sgh2 s) (sr_sgh3 s) (sr_sgh4 s) (sr_sh2 s) (sr_sh3 s) (sr_si2 s) (sr_si3 s) (sr_sl2 s) (sr_sl3 s) (sr_sl4 s) (sr_gsto s) (sr_xfact s) (sr_xgh2 s) (sr_xgh3 s) (sr_xgh4 s) (sr_xh2 s) (sr_xh3 s) (sr_xi2 s) (sr_xi3 s) (sr_xl2 s) (sr_xl3 s) (sr_xl4 s) (sr_xlamo s) (sr_zmol s) (sr_zmos s) (sr_atime s) (sr_xli s) (sr_xni s).
Definition set_nodedot v (s : Satrec) : Satrec :=
  MkSatrec (sr_name s) (sr_init s) (sr_operationmode s) (sr_error s) (sr_satnum s) (sr_epochyr s) (sr_epochdays s) (sr_ndot s) (sr_nddot s) (sr_bstar s) (sr_inclo s) (sr_nodeo s) (sr_ecco s) (sr_mo s) (sr_no s) (sr_a s) (sr_argpo s) (sr_alta s) (sr_altp s) (sr_jdsatepoch s) (sr_isimp s) (sr_method s) (sr_aycof s) (sr_con41 s) (sr_cc1 s) (sr_cc4 s) (sr_cc5 s) (sr_d2 s) (sr_d3 s) (sr_d4 s) (sr_delmo s) (sr_eta s) (sr_argpdot s) (sr_omgcof s) (sr_sinmao s) (sr_t s) (sr_t2cof s) (sr_t3cof s) (sr_t4cof s) (sr_t5cof s) (sr_x1mth2 s) (sr_x7thm1 s) (sr_mdot s) v (sr_xlcof s) (sr_xmcof s) (sr_nodecf s) (sr_irez s) (sr_d2201 s) (sr_d2211 s) (sr_d3210 s) (sr_d3222 s) (sr_d4410 s) (sr_d4422 s) (sr_d5220 s) (sr_d5232 s) (sr_d5421 s) (sr_d5433 s) (sr_dedt s) (sr_del1 s) (sr_del2 s) (sr_del3 s) (sr_didt s) (sr_dmdt s) (sr_dnodt s) (sr_domdt s) (sr_e3 s) (sr_ee2 s) (sr_peo s) (sr_pgho s) (sr_pho s) (sr_pinco s) (sr_plo s) (sr_se2 s) (sr_se3 s) (sr_sgh2 s) (sr_sgh3 s) (sr_sgh4 s) (sr_sh2 s) (sr_sh3 s) (sr_si2 s) (sr_si3 s) (sr_sl2 s) (sr_sl3 s) (sr_sl4 s) (sr_gsto s) (sr_xfact s) (sr_xgh2 s) (sr_xgh3 s) (sr_xgh4 s) (sr_xh2 s) (sr_xh3 s) (sr_xi2 s) (sr_xi3 s) (sr_xl2 s) (sr_xl3 s) (sr_xl4 s) (sr_xlamo s) (sr_zmol s) (sr_zmos s) (sr_atime s) (sr_xli s) (sr_xni s).
Definition set_xlcof v (s : Satrec) : Satrec :=
  MkSatrec (sr_name s) (sr_init s) (sr_operationmode s) (sr_error s) (sr_satnum s) (sr_epochyr s) (sr_epochdays s) (sr_ndot s) (sr_nddot s) (sr_bstar s) (sr_inclo s) (sr_nodeo s) (sr_ecco s) (sr_mo s) (sr_no s) (sr_a s) (sr_argpo s) (sr_alta s) (sr_altp s) (sr_jdsatepoch s) (sr_isimp s) (sr_method s) (sr_aycof s) (sr_con41 s) (sr_cc1 s) (sr_cc4 s) (sr_cc5 s) (sr_d2 s) (sr_d3 s) (sr_d4 s) (sr_delmo s) (sr_eta s) (sr_argpdot s) (sr_omgcof s) (sr_sinmao s) (sr_t s) (sr_t2cof s) (sr_t3cof s) (sr_t4cof s) (sr_t5cof s) (sr_x1mth2 s) (sr_x7thm1 s) (sr_mdot s) (sr_nodedot s) v (sr_xmcof s) (sr_nodecf s) (sr_irez s) (sr_d2201 s) (sr_d2211 s) (sr_d3210 s) (sr_d3222 s) (sr_d4410 s) (sr_d4422 s) (sr_d5220 s) (sr_d5232 s) (sr_d5421 s) (sr_d5433 s) (sr_dedt s) (sr_del1 s) (sr_del2 s) (sr_del3 s) (sr_didt s) (sr_dmdt s) (sr_dnodt s) (sr_domdt s) (sr_e3 s) (sr_ee2 s) (sr_peo s) (sr_pgho s) (sr_pho s) (sr_pinco s) (sr_plo s) (sr_se2 s) (sr_se3 s) (sr_sgh2 s) (sr_sgh3 s) (sr_sgh4 s) (sr_sh2 s) (sr_sh3 s) (sr_si2 s) (sr_si3 s) (sr_sl2 s) (sr_sl3 s) (sr_sl4 s) (sr_gsto s) (sr_xfact s) (sr_xgh2 s) (sr_xgh3 s) (sr_xgh4 s) (sr_xh2 s) (sr_xh3 s) (sr_xi2 s) (sr_xi3 s) (sr_xl2 s) (sr_xl3 s) (sr_xl4 s) (sr_xlamo s) (sr_zmol s) (sr_zmos s) (sr_atime s) (sr_xli s) (sr_xni s).
Definition set_xmcof v (s : Satrec) : Satrec :=
  MkSatrec (sr_name s) (sr_init s) (sr_operationmode s) (sr_error s) (sr_satnum s) (sr_epochyr s) (sr_epochdays s) (sr_ndot s) (sr_nddot s) (sr_bstar s) (sr_inclo s) (sr_nodeo s) (sr_ecco s) (sr_mo s) (sr_no s) (sr_a s) (sr_argpo s) (sr_alta s) (sr_altp s) (sr_jdsatepoch s) (sr_isimp s) (sr_method s) (sr_aycof s) (sr_con41 s) (sr_cc1 s) (sr_cc4 s) (sr_cc5 s) (sr_d2 s) (sr_d3 s) (sr_d4 s) (sr_delmo s) (sr_eta s) (sr_argpdot s) (sr_omgcof s) (sr_sinmao s) (sr_t s) (sr_t2cof s) (sr_t3cof s) (sr_t4cof s) (sr_t5cof s) (sr_x1mth2 s) (sr_x7thm1 s) (sr_mdot s) (sr_nodedot s) (sr_xlcof s) v (sr_nodecf s) (sr_irez s) (sr_d2201 s) (sr_d2211 s) (sr_d3210 s) (sr_d3222 s) (sr_d4410 s) (sr_d4422 s) (sr_d5220 s) (sr_d5232 s) (sr_d5421 s) (sr_d5433 s) (sr_dedt s) (sr_del1 s) (sr_del2 s) (sr_del3 s) (sr_didt s) (sr_dmdt s) (sr_dnodt s) (sr_domdt s) (sr_e3 s) (sr_ee2 s) (sr_peo s) (sr_pgho s) (sr_pho s) (sr_pinco s) (sr_plo s) (sr_se2 s) (sr_se3 s) (sr_sgh2 s) (sr_sgh3 s) (sr_sgh4 s) (sr_sh2 s) (sr_sh3 s) (sr_si2 s) (sr_si3 s) (sr_sl2 s) (sr_sl3 s) (sr_sl4 s) (sr_gsto s) (sr_xfact s) (sr_xgh2 s) (sr_xgh3 s) (sr_xgh4 s) (sr_xh2 s) (sr_xh3 s) (sr_xi2 s) (sr_xi3 s) (sr_xl2 s) (sr_xl3 s) (sr_xl4 s) (sr_xlamo s) (sr_zmol s) (sr_zmos s) (sr_atime s) (sr_xli s) (sr_xni s).
Definition set_nodecf v (s : Satrec) : Satrec :=
  MkSatrec (sr_name s) (sr_init s) (sr_operationmode s) (sr_error s) (sr_satnum s) (sr_epochyr s) (sr_epochdays s) (sr_ndot s) (sr_nddot s) (sr_bstar s) (sr_inclo s) (sr_nodeo s) (sr_ecco s) (sr_mo s) (sr_no s) (sr_a s) (sr_argpo s) (sr_alta s) (sr_altp s) (sr_jdsatepoch s) (sr_isimp s) (sr_method s) (sr_aycof s) (sr_con41 s) (sr_cc1 s) (sr_cc4 s) (sr_cc5 s) (sr_d2 s) (sr_d3 s) (sr_d4 s) (sr_delmo s) (sr_eta s) (sr_argpdot s) (sr_omgcof s) (sr_sinmao s) (sr_t s) (sr_t2cof s) (sr_t3cof s) (sr_t4cof s) (sr_t5cof s) (sr_x1mth2 s) (sr_x7thm1 s) (sr_mdot s) (sr_nodedot s) (sr_xlcof s) (sr_xmcof s) v (sr_irez s) (sr_d2201 s) (sr_d2211 s) (sr_d3210 s) (sr_d3222 s) (sr_d4410 s) (sr_d4422 s) (sr_d5220 s) (sr_d5232 s) (sr_d5421 s) (sr_d5433 s) (sr_dedt s) (sr_del1 s) (sr_del2 s) (sr_del3 s) (sr_didt s) (sr_dmdt s) (sr_dnodt s) (sr_domdt s) (sr_e3 s) (sr_ee2 s) (sr_peo s) (sr_pgho s) (sr_pho s) (sr_pinco s) (sr_plo s) (sr_se2 s) (sr_se3 s) (sr_sgh2 s) (sr_sgh3 s) (sr_sgh4 s) (sr_sh2 s) (sr_sh3 s) (sr_si2 s) (sr_si3 s) (sr_sl2 s) (sr_sl3 s) (sr_sl4 s) (sr_gsto s) (sr_xfact s) (sr_xgh2 s) (sr_xgh3 s) (sr_xgh4 s) (sr_xh2 s) (sr_xh3 s) (sr_xi2 s) (sr_xi3 s) (sr_xl2 s) (sr_xl3 s) (sr_xl4 s) (sr_xlamo s) (sr_zmol s) (sr_zmos s) (sr_atime s) (sr_xli s) (sr_xni s).
Definition set_irez v (s : Satrec) : Satrec :=
  MkSatrec (sr_name s) (sr_init s) (sr_operationmode s) (sr_error s) (sr_satnum s) (sr_epochyr s) (sr_epochdays s) (sr_ndot s) (sr_nddot s) (sr_bstar s) (sr_inclo s) (sr_nodeo s) (sr_ecco s) (sr_mo s) (sr_no s) (sr_a s) (sr_argpo s) (sr_alta s) (sr_altp s) (sr_jdsatepoch s) (sr_isimp s) (sr_method s) (sr_aycof s) (sr_con41 s) (sr_cc1 s) (sr_cc4 s) (sr_cc5 s) (sr_d2 s) (sr_d3 s) (sr_d4 s) (sr_delmo s) (sr_eta s) (sr_argpdot s) (sr_omgcof s) (sr_sinmao s) (sr_t s) (sr_t2cof s) (sr_t3cof s) (sr_t4cof s) (sr_t5cof s) (sr_x1mth2 s) (sr_x7thm1 s) (sr_mdot s) (sr_nodedot s) (sr_xlcof s) (sr_xmcof s) (sr_nodecf s) v (sr_d2201 s) (sr_d2211 s) (sr_d3210 s) (sr_d3222 s) (sr_d4410 s) (sr_d4422 s) (sr_d5220 s) (sr_d5232 s) (sr_d5421 s) (sr_d5433 s) (sr_dedt s) (sr_del1 s) (sr_del2 s) (sr_del3 s) (sr_didt s) (sr_dmdt s) (sr_dnodt s) (sr_domdt s) (sr_e3 s) (sr_ee2 s) (sr_peo s) (sr_pgho s) (sr_pho s) (sr_pinco s) (sr_plo s) (sr_se2 s) (sr_se3 s) (sr_sgh2 s) (sr_sgh3 s) (sr_sgh4 s) (sr_sh2 s) (sr_sh3 s) (sr_si2 s) (sr_si3 s) (sr_sl2 s) (sr_sl3 s) (sr_sl4 s) (sr_gsto s) (sr_xfact s) (sr_xgh2 s) (sr_xgh3 s) (sr_xgh4 s) (sr_xh2 s) (sr_xh3 s) (sr_xi2 s) (sr_xi3 s) (sr_xl2 s) (sr_xl3 s) (sr_xl4 s) (sr_xlamo s) (sr_zmol s) (sr_zmos s) (sr_atime s) (sr_xli s) (sr_xni s).
Definition set_d2201 v (s : Satrec) : Satrec :=
  MkSatrec (sr_name s) (sr_init s) (sr_operationmode s) (sr_error s) (sr_satnum s) (sr_epochyr s) (sr_epochdays s) (sr_ndot s) (sr_nddot s) (sr_bstar s) (sr_inclo s) (sr_nodeo s) (sr_ecco s) (sr_mo s) (sr_no s) (sr_a s) (sr_argpo s) (sr_alta s) (sr_altp s) (sr_jdsatepoch s) (sr_isimp s) (sr_method s) (sr_aycof s) (sr_con41 s) (sr_cc1 s) (sr_cc4 s) (sr_cc5 s) (sr_d2 s) (sr_d3 s) (sr_d4 s) (sr_delmo s) (sr_eta s) (sr_argpdot s) (sr_omgcof s) (sr_sinmao s) (sr_t s) (sr_t2cof s) (sr_t3cof s) (sr_t4cof s) (sr_t5cof s) (sr_x1mth2 s) (sr_x7thm1 s) (sr_mdot s) (sr_nodedot s) (sr_xlcof s) (sr_xmcof s) (sr_nodecf s) (sr_irez s) v (sr_d2211 s) (sr_d3210 s) (sr_d3222 s) (sr_d4410 s) (sr_d4422 s) (sr_d5220 s) (sr_d5232 s) (sr_d5421 s) (sr_d5433 s) (sr_dedt s) (sr_del1 s) (sr_del2 s) (sr_del3 s) (sr_didt s) (sr_dmdt s) (sr_dnodt s) (sr_domdt s) (sr_e3 s) (sr_ee2 s) (sr_peo s) (sr_pgho s) (sr_pho s) (sr_pinco s) (sr_plo s) (sr_se2 s) (sr_se3 s) (sr_sgh2 s) (sr_sgh3 s) (sr_sgh4 s) (sr_sh2 s) (sr_sh3 s) (sr_si2 s) (sr_si3 s) (sr_sl2 s) (sr_sl3 s) (sr_sl4 s) (sr_gsto s) (sr_xfact s) (sr_xgh2 s) (sr_xgh3 s) (sr_xgh4 s) (sr_xh2 s) (sr_xh3 s) (sr_xi2 s) (sr_xi3 s) (sr_xl2 s) (sr_xl3 s) (sr_xl4 s) (sr_xlamo s) (sr_zmol s) (sr_zmos s) (sr_atime s) (sr_xli s) (sr_xni s).
Definition set_d2211 v (s : Satrec) : Satrec :=
  MkSatrec (sr_name s) (sr_init s) (sr_operationmode s) (sr_error s) (sr_satnum s) (sr_epochyr s) (sr_epochdays s) (sr_ndot s) (sr_nddot s) (sr_bstar s) (sr_inclo s) (sr_nodeo s) (sr_ecco s) (sr_mo s) (sr_no s) (sr_a s) (sr_argpo s) (sr_alta s) (sr_altp s) (sr_jdsatepoch s) (sr_isimp s) (sr_method s) (sr_aycof s) (sr_con41 s) (sr_cc1 s) (sr_cc4 s) (sr_cc5 s) (sr_d2 s) (sr_d3 s) (sr_d4 s) (sr_delmo s) (sr_eta s) (sr_argpdot s) (sr_omgcof s) (sr_sinmao s) (sr_t s) (sr_t2cof s) (sr_t3cof s) (sr_t4cof s) (sr_t5cof s) (sr_x1mth2 s) (sr_x7thm1 s) (sr_mdot s) (sr_nodedot s) (sr_xlcof s) (sr_xmcof s) (sr_nodecf s) (sr_irez s) (sr_d2201 s) v (sr_d3210 s) (sr_d3222 s) (sr_d4410 s) (sr_d4422 s) (sr_d5220 s) (sr_d5232 s) (sr_d5421 s) (sr_d5433 s) (sr_dedt s) (sr_del1 s) (sr_del2 s) (sr_del3 s) (sr_didt s) (sr_dmdt s) (sr_dnodt s) (sr_domdt s) (sr_e3 s) (sr_ee2 s) (sr_peo s) (sr_pgho s) (sr_pho s) (sr_pinco s) (sr_plo s) (sr_se2 s) (sr_se3 s) (sr_sgh2 s) (sr_sgh3 s) (sr_sgh4 s) (sr_sh2 s) (sr_sh3 s) (sr_si2 s) (sr_si3 s) (sr_sl2 s) (sr_sl3 s) (sr_sl4 s) (sr_gsto s) (sr_xfact s) (sr_xgh2 s) (sr_xgh3 s) (sr_xgh4 s) (sr_xh2 s) (sr_xh3 s) (sr_xi2 s) (sr_xi3 s) (sr_xl2 s) (sr_xl3 s) (sr_xl4 s) (sr_xlamo s) (sr_zmol s) (sr_zmos s) (sr_atime s) (sr_xli s) (sr_xni s).
Definition set_d3210 v (s : Satrec) : Satrec :=
  MkSatrec (sr_name s) (sr_init s) (sr_operationmode s) (sr_error s) (sr_satnum s) (sr_epochyr s) (sr_epochdays s) (sr_ndot s) (sr_nddot s) (sr_bstar s) (sr_inclo s) (sr_nodeo s) (sr_ecco s) (sr_mo s) (sr_no s) (sr_a s) (sr_argpo s) (sr_alta s) (sr_altp s) (sr_jdsatepoch s) (sr_isimp s) (sr_method s) (sr_aycof s) (sr_con41 s) (sr_cc1 s) (sr_cc4 s) (sr_cc5 s) (sr_d2 s) (sr_d3 s) (sr_d4 s) (sr_delmo s) (sr_eta s) (sr_argpdot s) (sr_omgcof s) (sr_sinmao s) (sr_t s) (sr_t2cof s) (sr_t3cof s) (sr_t4cof s) (sr_t5cof s) (sr_x1mth2 s) (sr_x7thm1 s) (sr_mdot s) (sr_nodedot s) (sr_xlcof s) (sr_xmcof s) (sr_nodecf s) (sr_irez s) (sr_d2201 s) (sr_d2211 s) v (sr_d3222 s) (sr_d4410 s) (sr_d4422 s) (sr_d5220 s) (sr_d5232 s) (sr_d5421 s) (sr_d5433 s) (sr_dedt s) (sr_del1 s) (sr_del2 s) (sr_del3 s) (sr_didt s) (sr_dmdt s) (sr_dnodt s) (sr_domdt s) (sr_e3 s) (sr_ee2 s) (sr_peo s) (sr_pgho s) (sr_pho s) (sr_pinco s) (sr_plo s) (sr_se2 s) (sr_se3 s) (sr_sgh2 s) (sr_sgh3 s) (sr_sgh4 s) (sr_sh2 s) (sr_sh3 s) (sr_si2 s) (sr_si3 s) (sr_sl2 s) (sr_sl3 s) (sr_sl4 s) (sr_gsto s) (sr_xfact s) (sr_xgh2 s) (sr_xgh3 s) (sr_xgh4 s) (sr_xh2 s) (sr_xh3 s) (sr_xi2 s) (sr_xi3 s) (sr_xl2 s) (sr_xl3 s) (sr_xl4 s) (sr_xlamo s) (sr_zmol s) (sr_zmos s) (sr_atime s) (sr_xli s) (sr_xni s).
Definition set_d3222 v (s : Satrec) : Satrec :=
  MkSatrec (sr_name s) (sr_init s) (sr_operationmode s) (sr_error s) (sr_satnum s) (sr_epochyr s) (sr_epochdays s) (sr_ndot s) (sr_nddot s) (sr_bstar s) (sr_inclo s) (sr_nodeo s) (sr_ecco s) (sr_mo s) (sr_no s) (sr_a s) (sr_argpo s) (sr_alta s) (sr_altp s) (sr_jdsatepoch s) (sr_isimp s) (sr_method s) (sr_aycof s) (sr_con41 s) (sr_cc1 s) (sr_cc4 s) (sr_cc5 s) (sr_d2 s) (sr_d3 s) (sr_d4 s) (sr_delmo s) (sr_eta s) (sr_argpdot s) (sr_omgcof s) (sr_sinmao s) (sr_t s) (sr_t2cof s) (sr_t3cof s) (sr_t4cof s) (sr_t5cof s) (sr_x1mth2 s) (sr_x7thm1 s) (sr_mdot s) (sr_nodedot s) (sr_xlcof s) (sr_xmcof s) (sr_nodecf s) (sr_irez s) (sr_d2201 s) (sr_d2211 s) (sr_d3210 s) v (sr_d4410 s) (sr_d4422 s) (sr_d5220 s) (sr_d5232 s) (sr_d5421 s) (sr_d5433 s) (sr_dedt s) (sr_del1 s) (sr_del2 s) (sr_del3 s) (sr_didt s) (sr_dmdt s) (sr_dnodt s) (sr_domdt s) (sr_e3 s) (sr_ee2 s) (sr_peo s) (sr_pgho s) (sr_pho s) (sr_pinco s) (sr_plo s) (sr_se2 s) (sr_se3 s) (sr_sgh2 s) (sr_sgh3 s) (sr_sgh4 s) (sr_sh2 s) (sr_sh3 s) (sr_si2 s) (sr_si3 s) (sr_sl2 s) (sr_sl3 s) (sr_sl4 s) (sr_gsto s) (sr_xfact s) (sr_xgh2 s) (sr_xgh3 s) (sr_xgh4 s) (sr_xh2 s) (sr_xh3 s) (sr_xi2 s) (sr_xi3 s) (sr_xl2 s) (sr_xl3 s) (sr_xl4 s) (sr_xlamo s) (sr_zmol s) (sr_zmos s) (sr_atime s) (sr_xli s) (sr_xni s).
Definition set_d4410 v (s : Satrec) : Satrec :=
  MkSatrec (sr_name s) (sr_init s) (sr_operationmode s) (sr_error s) (sr_satnum s) (sr_epochyr s) (sr_epochdays s) (sr_ndot s) (sr_nddot s) (sr_bstar s) (sr_inclo s) (sr_nodeo s) (sr_ecco s) (sr_mo s) (sr_no s) (sr_a s) (sr_argpo s) (sr_alta s) (sr_altp s) (sr_jdsatepoch s) (sr_isimp s) (sr_method s) (sr_aycof s) (sr_con41 s) (sr_cc1 s) (sr_cc4 s) (sr_cc5 s) (sr_d2 s) (sr_d3 s) (sr_d4 s) (sr_delmo s) (sr_eta s) (sr_argpdot s) (sr_omgcof s) (sr_sinmao s) (sr_t s) (sr_t2cof s) (sr_t3cof s) (sr_t4cof s) (sr_t5cof s) (sr_x1mth2 s) (sr_x7thm1 s) (sr_mdot s) (sr_nodedot s) (sr_xlcof s) (sr_xmcof s) (sr_nodecf s) (sr_irez s) (sr_d2201 s) (sr_d2211 s) (sr_d3210 s) (sr_d3222 s) v (sr_d4422 s) (sr_d5220 s) (sr_d5232 s) (sr_d5421 s) (sr_d5433 s) (sr_dedt s) (sr_del1 s) (sr_del2 s) (sr_del3 s) (sr_didt s) (sr_dmdt s) (sr_dnodt s) (sr_domdt s) (sr_e3 s) (sr_ee2 s) (sr_peo s) (sr_pgho s) (sr_pho s) (sr_pinco s) (sr_plo s) (sr_se2 s) (sr_se3 s) (sr_sgh2 s) (sr_sgh3 s) (sr_sgh4 s) (sr_sh2 s) (sr_sh3 s) (sr_si2 s) (sr_si3 s) (sr_sl2 s) (sr_sl3 s) (sr_sl4 s) (sr_gsto s) (sr_xfact s) (sr_xgh2 s) (sr_xgh3 s) (sr_xgh4 s) (sr_xh2 s) (sr_xh3 s) (sr_xi2 s) (sr_xi3 s) (sr_xl2 s) (sr_xl3 s) (sr_xl4 s) (sr_xlamo s) (sr_zmol s) (sr_zmos s) (sr_atime s) (sr_xli s) (sr_xni s).
Definition set_d4422 v (s : Satrec) : Satrec :=
  MkSatrec (sr_name s) (sr_init s) (sr_operationmode s) (sr_error s) (sr_satnum s) (sr_epochyr s) (sr_epochdays s) (sr_ndot s) (sr_nddot s) (sr_bstar s) (sr_inclo s) (sr_nodeo s) (sr_ecco s) (sr_mo s) (sr_no s) (sr_a s) (sr_argpo s) (sr_alta s) (sr_altp s) (sr_jdsatepoch s) (sr_isimp s) (sr_method s) (sr_aycof s) (sr_con41 s) (sr_cc1 s) (sr_cc4 s) (sr_cc5 s) (sr_d2 s) (sr_d3 s) (sr_d4 s) (sr_delmo s) (sr_eta s) (sr_argpdot s) (sr_omgcof s) (sr_sinmao s) (sr_t s) (sr_t2cof s) (sr_t3cof s) (sr_t4cof s) (sr_t5cof s) (sr_x1mth2 s) (sr_x7thm1 s) (sr_mdot s) (sr_nodedot s) (sr_xlcof s) (sr_xmcof s) (sr_nodecf s) (sr_irez s) (sr_d2201 s) (sr_d2211 s) (sr_d3210 s) (sr_d3222 s) (sr_d4410 s) v (sr_d5220 s) (sr_d5232 s) (sr_d5421 s) (sr_d5433 s) (sr_dedt s) (sr_del1 s) (sr_del2 s) (sr_del3 s) (sr_didt s) (sr_dmdt s) (sr_dnodt s) (sr_domdt s) (sr_e3 s) (sr_ee2 s) (sr_peo s) (sr_pgho s) (sr_pho s) (sr_pinco s) (sr_plo s) (sr_se2 s) (sr_se3 s) (sr_sgh2 s) (sr_sgh3 s) (sr_sgh4 s) (sr_sh2 s) (sr_sh3 s) (sr_si2 s) (sr_si3 s) (sr_sl2 s) (sr_sl3 s) (sr_sl4 s) (sr_gsto s) (sr_xfact s) (sr_xgh2 s) (sr_xgh3 s) (sr_xgh4 s) (sr_xh2 s) (sr_xh3 s) (sr_xi2 s) (sr_xi3 s) (sr_xl2 s) (sr_xl3 s) (sr_xl4 s) (sr_xlamo s) (sr_zmol s) (sr_zmos s) (sr_atime s) (sr_xli s) (sr_xni s).
Definition set_d5220 v (s : Satrec) : Satrec :=
  MkSatrec (sr_name s) (sr_init s) (sr_operationmode s) (sr_error s) (sr_satnum s) (sr_epochyr s) (sr_epochdays s) (sr_ndot s) (sr_nddot s) (sr_bstar s) (sr_inclo s) (sr_nodeo s) (sr_ecco s) (sr_mo s) (sr_no s) (sr_a s) (sr_argpo s) (sr_alta s) (sr_altp s) (sr_jdsatepoch s) (sr_isimp s) (sr_method s) (sr_aycof s) (sr_con41 s) (sr_cc1 s) (sr_cc4 s) (sr_cc5 s) (sr_d2 s) (sr_d3 s) (sr_d4 s) (sr_delmo s) (sr_eta s) (sr_argpdot s) (sr_omgcof s) (sr_sinmao s) (sr_t s) (sr_t2cof s) (sr_t3cof s) (sr_t4cof s) (sr_t5cof s) (sr_x1mth2 s) (sr_x7thm1 s) (sr_mdot s) (sr_nodedot s) (sr_xlcof s) (sr_xmcof s) (sr_nodecf s) (sr_irez s) (sr_d2201 s) (sr_d2211 s) (sr_d3210 s) (sr_d3222 s) (sr_d4410 s) (sr_d4422 s) v (sr_d5232 s) (sr_d5421 s) (sr_d5433 s) (sr_dedt s) (sr_del1 s) (sr_del2 s) (sr_del3 s) (sr_didt s) (sr_dmdt s) (sr_dnodt s) (sr_domdt s) (sr_e3 s) (sr_ee2 s) (sr_peo s) (sr_pgho s) (sr_pho s) (sr_pinco s) (sr_plo s) (sr_se2 s) (sr_se3 s) (sr_sgh2 s) (sr_sgh3 s) (sr_sgh4 s) (sr_sh2 s) (sr_sh3 s) (sr_si2 s) (sr_si3 s) (sr_sl2 s) (sr_sl3 s) (sr_sl4 s) (sr_gsto s) (sr_xfact s) (sr_xgh2 s) (sr_xgh3 s) (sr_xgh4 s) (sr_xh2 s) (sr_xh3 s) (sr_xi2 s) (sr_xi3 s) (sr_xl2 s) (sr_xl3 s) (sr_xl4 s) (sr_xlamo s) (sr_zmol s) (sr_zmos s) (sr_atime s) (sr_xli s) (sr_xni s).
Definition set_d5232 v (s : Satrec) : Satrec :=
  MkSatrec (sr_name s) (sr_init s) (sr_operationmode s) (sr_error s) (sr_satnum s) (sr_epochyr s) (sr_epochdays s) (sr_ndot s) (sr_nddot s) (sr_bstar s) (sr_inclo s) (sr_nodeo s) (sr_ecco s) (sr_mo s) (sr_no s) (sr_a s) (sr_argpo s) (sr_alta s) (sr_altp s) (sr_jdsatepoch s) (sr_isimp s) (sr_method s) (sr_aycof s) (sr_con41 s) (sr_cc1 s) (sr_cc4 s) (sr_cc5 s) (sr_d2 s) (sr_d3 s) (sr_d4 s) (sr_delmo s) (sr_eta s) (sr_argpdot s) (sr_omgcof s) (sr_sinmao s) (sr_t s) (sr_t2cof s) (sr_t3cof s) (sr_t4cof s) (sr_t5cof s) (sr_x1mth2 s) (sr_x7thm1 s) (sr_mdot s) (sr_nodedot s) (sr_xlcof s) (sr_xmcof s) (sr_nodecf s) (sr_irez s) (sr_d2201 s) (sr_d2211 s) (sr_d3210 s) (sr_d3222 s) (sr_d4410 s) (sr_d4422 s) (sr_d5220 s) v (sr_d5421 s) (sr_d5433 s) (sr_dedt s) (sr_del1 s) (sr_del2 s) (sr_del3 s) (sr_didt s) (sr_dmdt s) (sr_dnodt s) (sr_domdt s) (sr_e3 s) (sr_ee2 s) (sr_peo s) (sr_pgho s) (sr_pho s) (sr_pinco s) (sr_plo s) (sr_se2 s) (sr_se3 s) (sr_sgh2 s) (sr_sgh3 s) (sr_sgh4 s) (sr_sh2 s) (sr_sh3 s) (sr_si2 s) (sr_si3 s) (sr_sl2 s) (sr_sl3 s) (sr_sl4 s) (sr_gsto s) (sr_xfact s) (sr_xgh2 s) (sr_xgh3 s) (sr_xgh4 s) (sr_xh2 s) (sr_xh3 s) (sr_xi2 s) (sr_xi3 s) (sr_xl2 s) (sr_xl3 s) (sr_xl4 s) (sr_xlamo s) (sr_zmol s) (sr_zmos s) (sr_atime s) (sr_xli s) (sr_xni s).
Definition set_d5421 v (s : Satrec) : Satrec :=
  MkSatrec (sr_name s) (sr_init s) (sr_operationmode s) (sr_error s) (sr_satnum s) (sr_epochyr s) (sr_epochdays s) (sr_ndot s) (sr_nddot s) (sr_bstar s) (sr_inclo s) (sr_nodeo s) (sr_ecco s) (sr_mo s) (sr_no s) (sr_a s) (sr_argpo s) (sr_alta s) (sr_altp s) (sr_jdsatepoch s) (sr_isimp s) (sr_method s) (sr_aycof s) (sr_con41 s) (sr_cc1 s) (sr_cc4 s) (sr_cc5 s) (sr_d2 s) (sr_d3 s) (sr_d4 s) (sr_delmo s) (sr_eta s) (sr_argpdot s) (sr_omgcof s) (sr_sinmao s) (sr_t s) (sr_t2cof s) (sr_t3cof s) (sr_t4cof s) (sr_t5cof s) (sr_x1mth2 s) (sr_x7thm1 s) (sr_mdot s) (sr_nodedot s) (sr_xlcof s) (sr_xmcof s) (sr_nodecf s) (sr_irez s) (sr_d2201 s) (sr_d2211 s) (sr_d3210 s) (sr_d3222 s) (sr_d4410 s) (sr_d4422 s) (sr_d5220 s) (sr_d5232 s) v (sr_d5433 s) (sr_dedt s) (sr_del1 s) (sr_del2 s) (sr_del3 s) (sr_didt s) (sr_dmdt s) (sr_dnodt s) (sr_domdt s) (sr_e3 s) (sr_ee2 s) (sr_peo s) (sr_pgho s) (sr_pho s) (sr_pinco s) (sr_plo s) (sr_se2 s) (sr_se3 s) (sr_sgh2 s) (sr_sgh3 s) (sr_sgh4 s) (sr_sh2 s) (sr_sh3 s) (sr_si2 s) (sr_si3 s) (sr_sl2 s) (sr_sl3 s) (sr_sl4 s) (sr_gsto s) (sr_xfact s) (sr_xgh2 s) (sr_xgh3 s) (sr_xgh4 s) (sr_xh2 s) (sr_xh3 s) (sr_xi2 s) (sr_xi3 s) (sr_xl2 s) (sr_xl3 s) (sr_xl4 s) (sr_xlamo s) (sr_zmol s) (sr_zmos s) (sr_atime s) (sr_xli s) (sr_xni s).
Definition set_d5433 v (s : Satrec) : Satrec :=
  MkSatrec (sr_name s) (sr_init s) (sr_operationmode s) (sr_error s) (sr_satnum s) (sr_epochyr s) (sr_epochdays s) (sr_ndot s) (sr_nddot s) (sr_bstar s) (sr_inclo s) (sr_nodeo s) (sr_ecco s) (sr_mo s) (sr_no s) (sr_a s) (sr_argpo s) (sr_alta s) (sr_altp s) (sr_jdsatepoch s) (sr_isimp s) (sr_method s) (sr_aycof s) (sr_con41 s) (sr_cc1 s) (sr_cc4 s) (sr_cc5 s) (sr_d2 s) (sr_d3 s) (sr_d4 s) (sr_delmo s) (sr_eta s) (sr_argpdot s) (sr_omgcof s) (sr_sinmao s) (sr_t s) (sr_t2cof s) (sr_t3cof s) (sr_t4cof s) (sr_t5cof s) (sr_x1mth2 s) (sr_x7thm1 s) (sr_mdot s) (sr_nodedot s) (sr_xlcof s) (sr_xmcof s) (sr_nodecf s) (sr_irez s) (sr_d2201 s) (sr_d2211 s) (sr_d3210 s) (sr_d3222 s) (sr_d4410 s) (sr_d4422 s) (sr_d5220 s) (sr_d5232 s) (sr_d5421 s) v (sr_dedt s) (sr_del1 s) (sr_del2 s) (sr_del3 s) (sr_didt s) (sr_dmdt s) (sr_dnodt s) (sr_domdt s) (sr_e3 s) (sr_ee2 s) (sr_peo s) (sr_pgho s) (sr_pho s) (sr_pinco s) (sr_plo s) (sr_se2 s) (sr_se3 s) (sr_sgh2 s) (sr_sgh3 s) (sr_sgh4 s) (sr_sh2 s) (sr_sh3 s) (sr_si2 s) (sr_si3 s) (sr_sl2 s) (sr_sl3 s) (sr_sl4 s) (sr_gsto s) (sr_xfact s) (sr_xgh2 s) (sr_xgh3 s) (sr_xgh4 s) (sr_xh2 s) (sr_xh3 s) (sr_xi2 s) (sr_xi3 s) (sr_xl2 s) (sr_xl3 s) (sr_xl4 s) (sr_xlamo s) (sr_zmol s) (sr_zmos s) (sr_atime s) (sr_xli s) (sr_xni s).
Definition set_dedt v (s : Satrec) : Satrec :=
  MkSatrec (sr_name s) (sr_init s) (sr_operationmode s) (sr_error s) (sr_satnum s) (sr_epochyr s) (sr_epochdays s) (sr_ndot s) (sr_nddot s) (sr_bstar s) (sr_inclo s) (sr_nodeo s) (sr_ecco s) (sr_mo s) (sr_no s) (sr_a s) (sr_argpo s) (sr_alta s) (sr_altp s) (sr_jdsatepoch s) (sr_isimp s) (sr_method s) (sr_aycof s) (sr_con41 s) (sr_cc1 s) (sr_cc4 s) (sr_cc5 s) (sr_d2 s) (sr_d3 s) (sr_d4 s) (sr_delmo s) (sr_eta s) (sr_argpdot s) (sr_omgcof s) (sr_sinmao s) (sr_t s) (sr_t2cof s) (sr_t3cof s) (sr_t4cof s) (sr_t5cof s) (sr_x1mth2 s) (sr_x7thm1 s) (sr_mdot s) (sr_nodedot s) (sr_xlcof s) (sr_xmcof s) (sr_nodecf s) (sr_irez s) (sr_d2201 s) (sr_d2211 s) (sr_d3210 s) (sr_d3222 s) (sr_d4410 s) (sr_d4422 s) (sr_d5220 s) (sr_d5232 s) (sr_d5421 s) (sr_d5433 s) v (sr_del1 s) (sr_del2 s) (sr_del3 s) (sr_didt s) (sr_dmdt s) (sr_dnodt s) (sr_domdt s) (sr_e3 s) (sr_ee2 s) (sr_peo s) (sr_pgho s) (sr_pho s) (sr_pinco s) (sr_plo s) (sr_se2 s) (sr_se3 s) (sr_sgh2 s) (sr_sgh3 s) (sr_sgh4 s) (sr_sh2 s) (sr_sh3 s) (sr_si2 s) (sr_si3 s) (sr_sl2 s) (sr_sl3 s) (sr_sl4 s) (sr_gsto s) (sr_xfact s) (sr_xgh2 s) (sr_xgh3 s) (sr_xgh4 s) (sr_xh2 s) (sr_xh3 s) (sr_xi2 s) (sr_xi3 s) (sr_xl2 s) (sr_xl3 s) (sr_xl4 s) (sr_xlamo s) (sr_zmol s) (sr_zmos s) (sr_atime s) (sr_xli s) (sr_xni s).
Definition set_del1 v (s : Satrec) : Satrec :=
  MkSatrec (sr_name s) (sr_init s) (sr_operationmode s) (sr_error s) (sr_satnum s) (sr_epochyr s) (sr_epochdays s) (sr_ndot s) (sr_nddot s) (sr_bstar s) (sr_inclo s) (sr_nodeo s) (sr_ecco s) (sr_mo s) (sr_no s) (sr_a s) (sr_argpo s) (sr_alta s) (sr_altp s) (sr_jdsatepoch s) (sr_isimp s) (sr_method s) (sr_aycof s) (sr_con41 s) (sr_cc1 s) (sr_cc4 s) (sr_cc5 s) (sr_d2 s) (sr_d3 s) (sr_d4 s) (sr_delmo s) (sr_eta s) (sr_argpdot s) (sr_omgcof s) (sr_sinmao s) (sr_t s) (sr_t2cof s) (sr_t3cof s) (sr_t4cof s) (sr_t5cof s) (sr_x1mth2 s) (sr_x7thm1 s) (sr_mdot s) (sr_nodedot s) (sr_xlcof s) (sr_xmcof s) (sr_nodecf s) (sr_irez s) (sr_d2201 s) (sr_d2211 s) (sr_d3210 s) (sr_d3222 s) (sr_d4410 s) (sr_d4422 s) (sr_d5220 s) (sr_d5232 s) (sr_d5421 s) (sr_d5433 s) (sr_dedt s) v (sr_del2 s) (sr_del3 s) (sr_didt s) (sr_dmdt s) (sr_dnodt s) (sr_domdt s) (sr_e3 s) (sr_ee2 s) (sr_peo s) (sr_pgho s) (sr_pho s) (sr_pinco s) (sr_plo s) (sr_se2 s) (sr_se3 s) (sr_sgh2 s) (sr_sgh3 s) (sr_sgh4 s) (sr_sh2 s) (sr_sh3 s) (sr_si2 s) (sr_si3 s) (sr_sl2 s) (sr_sl3 s) (sr_sl4 s) (sr_gsto s) (sr_xfact s) (sr_xgh2 s) (sr_xgh3 s) (sr_xgh4 s) (sr_xh2 s) (sr_xh3 s) (sr_xi2 s) (sr_xi3 s) (sr_xl2 s) (sr_xl3 s) (sr_xl4 s) (sr_xlamo s) (sr_zmol s) (sr_zmos s) (sr_atime s) (sr_xli s) (sr_xni s).
Definition set_del2 v (s : Satrec) : Satrec :=
  MkSatrec (sr_name s) (sr_init s) (sr_operationmode s) (sr_error s) (sr_satnum s) (sr_epochyr s) (sr_epochdays s) (sr_ndot s) (sr_nddot s) (sr_bstar s) (sr_inclo s) (sr_nodeo s) (sr_ecco s) (sr_mo s) (sr_no s) (sr_a s) (sr_argpo s) (sr_alta s) (sr_altp s) (sr_jdsatepoch s) (sr_isimp s) (sr_method s) (sr_aycof s) (sr_con41 s) (sr_cc1 s) (sr_cc4 s) (sr_cc5 s) (sr_d2 s) (sr_d3 s) (sr_d4 s) (sr_delmo s) (sr_eta s) (sr_argpdot s) (sr_omgcof s) (sr_sinmao s) (sr_t s) (sr_t2cof s) (sr_t3cof s) (sr_t4cof s) (sr_t5cof s) (sr_x1mth2 s) (sr_x7thm1 s) (sr_mdot s) (sr_nodedot s) (sr_xlcof s) (sr_xmcof s) (sr_nodecf s) (sr_irez s) (sr_d2201 s) (sr_d2211 s) (sr_d3210 s) (sr_d3222 s) (sr_d4410 s) (sr_d4422 s) (sr_d5220 s) (sr_d5232 s) (sr_d5421 s) (sr_d5433 s) (sr_dedt s) (sr_del1 s) v (sr_del3 s) (sr_didt s) (sr_dmdt s) (sr_dnodt s) (sr_domdt s) (sr_e3 s) (sr_ee2 s) (sr_peo s) (sr_pgho s) (sr_pho s) (sr_pinco s) (sr_plo s) (sr_se2 s) (sr_se3 s) (sr_sgh2 s) (sr_sgh3 s) (sr_sgh4 s) (sr_sh2 s) (sr_sh3 s) (sr_si2 s) (sr_si3 s) (sr_sl2 s) (sr_sl3 s) (sr_sl4 s) (sr_gsto s) (sr_xfact s) (sr_xgh2 s) (sr_xgh3 s) (sr_xgh4 s) (sr_xh2 s) (sr_xh3 s) (sr_xi2 s) (sr_xi3 s) (sr_xl2 s) (sr_xl3 s) (sr_xl4 s) (sr_xlamo s) (sr_zmol s) (sr_zmos s) (sr_atime s) (sr_xli s) (sr_xni s).
Definition set_del3 v (s : Satrec) : Satrec :=
  MkSatrec (sr_name s) (sr_init s) (sr_operationmode s) (sr_error s) (sr_satnum s) (sr_epochyr s) (sr_epochdays s) (sr_ndot s) (sr_nddot s) (sr_bstar s) (sr_inclo s) (sr_nodeo s) (sr_ecco s) (sr_mo s) (sr_no s) (sr_a s) (sr_argpo s) (sr_alta s) (sr_altp s) (sr_jdsatepoch s) (sr_isimp s) (sr_method s) (sr_aycof s) (sr_con41 s) (sr_cc1 s) (sr_cc4 s) (sr_cc5 s) (sr_d2 s) (sr_d3 s) (sr_d4 s) (sr_delmo s) (sr_eta s) (sr_argpdot s) (sr_omgcof s) (sr_sinmao s) (sr_t s) (sr_t2cof s) (sr_t3cof s) (sr_t4cof s) (sr_t5cof s) (sr_x1mth2 s) (sr_x7thm1 s) (sr_mdot s) (sr_nodedot s) (sr_xlcof s) (sr_xmcof s) (sr_nodecf s) (sr_irez s) (sr_d2201 s) (sr_d2211 s) (sr_d3210 s) (sr_d3222 s) (sr_d4410 s) (sr_d4422 s) (sr_d5220 s) (sr_d5232 s) (sr_d5421 s) (sr_d5433 s) (sr_dedt s) (sr_del1 s) (sr_del2 s) v (sr_didt s) (sr_dmdt s) (sr_dnodt s) (sr_domdt s) (sr_e3 s) (sr_ee2 s) (sr_peo s) (sr_pgho s) (sr_pho s) (sr_pinco s) (sr_plo s) (sr_se2 s) (sr_se3 s) (sr_sgh2 s) (sr_sgh3 s) (sr_sgh4 s) (sr_sh2 s) (sr_sh3 s) (sr_si2 s) (sr_si3 s) (sr_sl2 s) (sr_sl3 s) (sr_sl4 s) (sr_gsto s) (sr_xfact s) (sr_xgh2 s) (sr_xgh3 s) (sr_xgh4 s) (sr_xh2 s) (sr_xh3 s) (sr_xi2 s) (sr_xi3 s) (sr_xl2 s) (sr_xl3 s) (sr_xl4 s) (sr_xlamo s) (sr_zmol s) (sr_zmos s) (sr_atime s) (sr_xli s) (sr_xni s).
Definition set_didt v (s : Satrec) : Satrec :=
  MkSatrec (sr_name s) (sr_init s) (sr_operationmode s) (sr_error s) (sr_satnum s) (sr_epochyr s) (sr_epochdays s) (sr_ndot s) (sr_nddot s) (sr_bstar s) (sr_inclo s) (sr_nodeo s) (sr_ecco s) (sr_mo s) (sr_no s) (sr_a s) (sr_argpo s) (sr_alta s) (sr_altp s) (sr_jdsatepoch s) (sr_isimp s) (sr_method s) (sr_aycof s) (sr_con41 s) (sr_cc1 s) (sr_cc4 s) (sr_cc5 s) (sr_d2 s) (sr_d3 s) (sr_d4 s) (sr_delmo s) (sr_eta s) (sr_argpdot s) (sr_omgcof s) (sr_sinmao s) (sr_t s) (sr_t2cof s) (sr_t3cof s) (sr_t4cof s) (sr_t5cof s) (sr_x1mth2 s) (sr_x7thm1 s) (sr_mdot s) (sr_nodedot s) (sr_xlcof s) (sr_xmcof s) (sr_nodecf s) (sr_irez s) (sr_d2201 s) (sr_d2211 s) (sr_d3210 s) (sr_d3222 s) (sr_d4410 s) (sr_d4422 s) (sr_d5220 s) (sr_d5232 s) (sr_d5421 s) (sr_d5433 s) (sr_dedt s) (sr_del1 s) (sr_del2 s) (sr_del3 s) v (sr_dmdt s) (sr_dnodt s) (sr_domdt s) (sr_e3 s) (sr_ee2 s) (sr_peo s) (sr_pgho s) (sr_pho s) (sr_pinco s) (sr_plo s) (sr_se2 s) (sr_se3 s) (sr_sgh2 s) (sr_sgh3 s) (sr_sgh4 s) (sr_sh2 s) (sr_sh3 s) (sr_si2 s) (sr_si3 s) (sr_sl2 s) (sr_sl3 s) (sr_sl4 s) (sr_gsto s) (sr_xfact s) (sr_xgh2 s) (sr_xgh3 s) (sr_xgh4 s) (sr_xh2 s) (sr_xh3 s) (sr_xi2 s) (sr_xi3 s) (sr_xl2 s) (sr_xl3 s) (sr_xl4 s) (sr_xlamo s) (sr_zmol s) (sr_zmos s) (sr_atime s) (sr_xli s) (sr_xni s).
Definition set_dmdt v (s : Satrec) : Satrec :=
  MkSatrec (sr_name s) (sr_init s) (sr_operationmode s) (sr_error s) (sr_satnum s) (sr_epochyr s) (sr_epochdays s) (sr_ndot s) (sr_nddot s) (sr_bstar s) (sr_inclo s) (sr_nodeo s) (sr_ecco s) (sr_mo s) (sr_no s) (sr_a s) (sr_argpo s) (sr_alta s) (sr_altp s) (sr_jdsatepoch s) (sr_isimp s) (sr_method s) (sr_aycof s) (sr_con41 s) (sr_cc1 s) (sr_cc4 s) (sr_cc5 s) (sr_d2 s) (sr_d3 s) (sr_d4 s) (sr_delmo s) (sr_eta s) (sr_argpdot s) (sr_omgcof s) (sr_sinmao s) (sr_t s) (sr_t2cof s) (sr_t3cof s) (sr_t4cof s) (sr_t5cof s) (sr_x1mth2 s) (sr_x7thm1 s) (sr_mdot s) (sr_nodedot s) (sr_xlcof s) (sr_xmcof s) (sr_nodecf s) (sr_irez s) (sr_d2201 s) (sr_d2211 s) (sr_d3210 s) (sr_d3222 s) (sr_d4410 s) (sr_d4422 s) (sr_d5220 s) (sr_d5232 s) (sr_d5421 s) (sr_d5433 s) (sr_dedt s) (sr_del1 s) (sr_del2 s) (sr_del3 s) (sr_didt s) v (sr_dnodt s) (sr_domdt s) (sr_e3 s) (sr_ee2 s) (sr_peo s) (sr_pgho s) (sr_pho s) (sr_pinco s) (sr_plo s) (sr_se2 s) (sr_se3 s) (sr_sgh2 s) (sr_sgh3 s) (sr_sgh4 s) (sr_sh2 s) (sr_sh3 s) (sr_si2 s) (sr_si3 s) (sr_sl2 s) (sr_sl3 s) (sr_sl4 s) (sr_gsto s) (sr_xfact s) (sr_xgh2 s) (sr_xgh3 s) (sr_xgh4 s) (sr_xh2 s) (sr_xh3 s) (sr_xi2 s) (sr_xi3 s) (sr_xl2 s) (sr_xl3 s) (sr_xl4 s) (sr_xlamo s) (sr_zmol s) (sr_zmos s) (sr_atime s) (sr_xli s) (sr_xni s).
Definition set_dnodt v (s : Satrec) : Satrec :=
  MkSatrec (sr_name s) (sr_init s) (sr_operationmode s) (sr_error s) (sr_satnum s) (sr_epochyr s) (sr_epochdays s) (sr_ndot s) (sr_nddot s) (sr_bstar s) (sr_inclo s) (sr_nodeo s) (sr_ecco s) (sr_mo s) (sr_no s) (sr_a s) (sr_argpo s) (sr_alta s) (sr_altp s) (sr_jdsatepoch s) (sr_isimp s) (sr_method s) (sr_aycof s) (sr_con41 s) (sr_cc1 s) (sr_cc4 s) (sr_cc5 s) (sr_d2 s) (sr_d3 s) (sr_d4 s) (sr_delmo s) (sr_eta s) (sr_argpdot s) (sr_omgcof s) (sr_sinmao s) (sr_t s) (sr_t2cof s) (sr_t3cof s) (sr_t4cof s) (sr_t5cof s) (sr_x1mth2 s) (sr_x7thm1 s) (sr_mdot s) (sr_nodedot s) (sr_xlcof s) (sr_xmcof s) (sr_nodecf s) (sr_irez s) (sr_d2201 s) (sr_d2211 s) (sr_d3210 s) (sr_d3222 s) (sr_d4410 s) (sr_d4422 s) (sr_d5220 s) (sr_d5232 s) (sr_d5421 s) (sr_d5433 s) (sr_dedt s) (sr_del1 s) (sr_del2 s) (sr_del3 s) (sr_didt s) (sr_dmdt s) v (sr_domdt s) (sr_e3 s) (sr_ee2 s) (sr_peo s) (sr_pgho s) (sr_pho s) (sr_pinco s) (sr_plo s) (sr_se2 s) (sr_se3 s) (sr_sgh2 s) (sr_sgh3 s) (sr_sgh4 s) (sr_sh2 s) (sr_sh3 s) (sr_si2 s) (sr_si3 s) (sr_sl2 s) (sr_sl3 s) (sr_sl4 s) (sr_gsto s) (sr_xfact s) (sr_xgh2 s) (sr_xgh3 s) (sr_xgh4 s) (sr_xh2 s) (sr_xh3 s) (sr_xi2 s) (sr_xi3 s) (sr_xl2 s) (sr_xl3 s) (sr_xl4 s) (sr_xlamo s) (sr_zmol s) (sr_zmos s) (sr_atime s) (sr_xli s) (sr_xni s).
Definition set_domdt v (s : Satrec) : Satrec :=
  MkSatrec (sr_name s) (sr_init s) (sr_operationmode s) (sr_error s) (sr_satnum s) (sr_epochyr s) (sr_epochdays s) (sr_ndot s) (sr_nddot s) (sr_bstar s) (sr_inclo s) (sr_nodeo s) (sr_ecco s) (sr_mo s) (sr_no s) (sr_a s) (sr_argpo s) (sr_alta s) (sr_altp s) (sr_jdsatepoch s) (sr_isimp s) (sr_method s) (sr_aycof s) (sr_con41 s) (sr_cc1 s) (sr_cc4 s) (sr_cc5 s) (sr_d2 s) (sr_d3 s) (sr_d4 s) (sr_delmo s) (sr_eta s) (sr_argpdot s) (sr_omgcof s) (sr_sinmao s) (sr_t s) (sr_t2cof s) (sr_t3cof s) (sr_t4cof s) (sr_t5cof s) (sr_x1mth2 s) (sr_x7thm1 s) (sr_mdot s) (sr_nodedot s) (sr_xlcof s) (sr_xmcof s) (sr_nodecf s) (sr_irez s) (sr_d2201 s) (sr_d2211 s) (sr_d3210 s) (sr_d3222 s) (sr_d4410 s) (sr_d4422 s) (sr_d5220 s) (sr_d5232 s) (sr_d5421 s) (sr_d5433 s) (sr_dedt s) (sr_del1 s) (sr_del2 s) (sr_del3 s) (sr_didt s) (sr_dmdt s) (sr_dnodt s) v (sr_e3 s) (sr_ee2 s) (sr_peo s) (sr_pgho s) (sr_pho s) (sr_pinco s) (sr_plo s) (sr_se2 s) (sr_se3 s) (sr_sgh2 s) (sr_sgh3 s) (sr_sgh4 s) (sr_sh2 s) (sr_sh3 s) (sr_si2 s) (sr_si3 s) (sr_sl2 s) (sr_sl3 s) (sr_sl4 s) (sr_gsto s) (sr_xfact s) (sr_xgh2 s) (sr_xgh3 s) (sr_xgh4 s) (sr_xh2 s) (sr_xh3 s) (sr_xi2 s) (sr_xi3 s) (sr_xl2 s) (sr_xl3 s) (sr_xl4 s) (sr_xlamo s) (sr_zmol s) (sr_zmos s) (sr_atime s) (sr_xli s) (sr_xni s).
Definition set_e3 v (s : Satrec) : Satrec :=
  MkSatrec (sr_name s) (sr_init s) (sr_operationmode s) (sr_error s) (sr_satnum s) (sr_epochyr s) (sr_epochdays s) (sr_ndot s) (sr_nddot s) (sr_bstar s) (sr_inclo s) (sr_nodeo s) (sr_ecco s) (sr_mo s) (sr_no s) (sr_a s) (sr_argpo s) (sr_alta s) (sr_altp s) (sr_jdsatepoch s) (sr_isimp s) (sr_method s) (sr_aycof s) (sr_con41 s) (sr_cc1 s) (sr_cc4 s) (sr_cc5 s) (sr_d2 s) (sr_d3 s) (sr_d4 s) (sr_delmo s) (sr_eta s) (sr_argpdot s) (sr_omgcof s) (sr_sinmao s) (sr_t s) (sr_t2cof s) (sr_t3cof s) (sr_t4cof s) (sr_t5cof s) (sr_x1mth2 s) (sr_x7thm1 s) (sr_mdot s) (sr_nodedot s) (sr_xlcof s) (sr_xmcof s) (sr_nodecf s) (sr_irez s) (sr_d2201 s) (sr_d2211 s) (sr_d3210 s) (sr_d3222 s) (sr_d4410 s) (sr_d4422 s) (sr_d5220 s) (sr_d5232 s) (sr_d5421 s) (sr_d5433 s) (sr_dedt s) (sr_del1 s) (sr_del2 s) (sr_del3 s) (sr_didt s) (sr_dmdt s) (sr_dnodt s) (sr_domdt s) v (sr_ee2 s) (sr_peo s) (sr_pgho s) (sr_pho s) (sr_pinco s) (sr_plo s) (sr_se2 s) (sr_se3 s) (sr_sgh2 s) (sr_sgh3 s) (sr_sgh4 s) (sr_sh2 s) (sr_sh3 s) (sr_si2 s) (sr_si3 s) (sr_sl2 s) (sr_sl3 s) (sr_sl4 s) (sr_gsto s) (sr_xfact s) (sr_xgh2 s) (sr_xgh3 s) (sr_xgh4 s) (sr_xh2 s) (sr_xh3 s) (sr_xi2 s) (sr_xi3 s) (sr_xl2 s) (sr_xl3 s) (sr_xl4 s) (sr_xlamo s) (sr_zmol s) (sr_zmos s) (sr_atime s) (sr_xli s) (sr_xni s).
Definition set_ee2 v (s : Satrec) : Satrec :=
  MkSatrec (sr_name s) (sr_init s) (sr_operationmode s) (sr_error s) (sr_satnum s) (sr_epochyr s) (sr_epochdays s) (sr_ndot s) (sr_nddot s) (sr_bstar s) (sr_inclo s) (sr_nodeo s) (sr_ecco s) (sr_mo s) (sr_no s) (sr_a s) (sr_argpo s) (sr_alta s) (sr_altp s) (sr_jdsatepoch s) (sr_isimp s) (sr_method s) (sr_aycof s) (sr_con41 s) (sr_cc1 s) (sr_cc4 s) (sr_cc5 s) (sr_d2 s) (sr_d3 s) (sr_d4 s) (sr_delmo s) (sr_eta s) (sr_argpdot s) (sr_omgcof s) (sr_sinmao s) (sr_t s) (sr_t2cof s) (sr_t3cof s) (sr_t4cof s) (sr_t5cof s) (sr_x1mth2 s) (sr_x7thm1 s) (sr_mdot s) (sr_nodedot s) (sr_xlcof s) (sr_xmcof s) (sr_nodecf s) (sr_irez s) (sr_d2201 s) (sr_d2211 s) (sr_d3210 s) (sr_d3222 s) (sr_d4410 s) (sr_d4422 s) (sr_d5220 s) (sr_d5232 s) (sr_d5421 s) (sr_d5433 s) (sr_dedt s) (sr_del1 s) (sr_del2 s) (sr_del3 s) (sr_didt s) (sr_dmdt s) (sr_dnodt s) (sr_domdt s) (sr_e3 s) v (sr_peo s) (sr_pgho s) (sr_pho s) (sr_pinco s) (sr_plo s) (sr_se2 s) (sr_se3 s) (sr_sgh2 s) (sr_sgh3 s) (sr_sgh4 s) (sr_sh2 s) (sr_sh3 s) (sr_si2 s) (sr_si3 s) (sr_sl2 s) (sr_sl3 s) (sr_sl4 s) (sr_gsto s) (sr_xfact s) (sr_xgh2 s) (sr_xgh3 s) (sr_xgh4 s) (sr_xh2 s) (sr_xh3 s) (sr_xi2 s) (sr_xi3 s) (sr_xl2 s) (sr_xl3 s) (sr_xl4 s) (sr_xlamo s) (sr_zmol s) (sr_zmos s) (sr_atime s) (sr_xli s) (sr_xni s).
Definition set_peo v (s : Satrec) : Satrec :=
  MkSatrec (sr_name s) (sr_init s) (sr_operationmode s) (sr_error s) (sr_satnum s) (sr_epochyr s) (sr_epochdays s) (sr_ndot s) (sr_nddot s) (sr_bstar s) (sr_inclo s) (sr_nodeo s) (sr_ecco s) (sr_mo s) (sr_no s) (sr_a s) (sr_argpo s) (sr_alta s) (sr_altp s) (sr_jdsatepoch s) (sr_isimp s) (sr_method s) (sr_aycof s) (sr_con41 s) (sr_cc1 s) (sr_cc4 s) (sr_cc5 s) (sr_d2 s) (sr_d3 s) (sr_d4 s) (sr_delmo s) (sr_eta s) (sr_argpdot s) (sr_omgcof s) (sr_sinmao s) (sr_t s) (sr_t2cof s) (sr_t3cof s) (sr_t4cof s) (sr_t5cof s) (sr_x1mth2 s) (sr_x7thm1 s) (sr_mdot s) (sr_nodedot s) (sr_xlcof s) (sr_xmcof s) (sr_nodecf s) (sr_irez s) (sr_d2201 s) (sr_d2211 s) (sr_d3210 s) (sr_d3222 s) (sr_d4410 s) (sr_d4422 s) (sr_d5220 s) (sr_d5232 s) (sr_d5421 s) (sr_d5433 s) (sr_dedt s) (sr_del1 s) (sr_del2 s) (sr_del3 s) (sr_didt s) (sr_dmdt s) (sr_dnodt s) (sr_domdt s) (sr_e3 s) (sr_ee2 s) v (sr_pgho s) (sr_pho s) (sr_pinco s) (sr_plo s) (sr_se2 s) (sr_se3 s) (sr_sgh2 s) (sr_sgh3 s) (sr_sgh4 s) (sr_sh2 s) (sr_sh3 s) (sr_si2 s) (sr_si3 s) (sr_sl2 s) (sr_sl3 s) (sr_sl4 s) (sr_gsto s) (sr_xfact s) (sr_xgh2 s) (sr_xgh3 s) (sr_xgh4 s) (sr_xh2 s) (sr_xh3 s) (sr_xi2 s) (sr_xi3 s) (sr_xl2 s) (sr_xl3 s) (sr_xl4 s) (sr_xlamo s) (sr_zmol s) (sr_zmos s) (sr_atime s) (sr_xli s) (sr_xni s).
Definition set_pgho v (s : Satrec) : Satrec :=
  MkSatrec (sr_name s) (sr_init s) (sr_operationmode s) (sr_error s) (sr_satnum s) (sr_epochyr s) (sr_epochdays s) (sr_ndot s) (sr_nddot s) (sr_bstar s) (sr_inclo s) (sr_nodeo s) (sr_ecco s) (sr_mo s) (sr_no s) (sr_a s) (sr_argpo s) (sr_alta s) (sr_altp s) (sr_jdsatepoch s) (sr_isimp s) (sr_method s) (sr_aycof s) (sr_con41 s) (sr_cc1 s) (sr_cc4 s) (sr_cc5 s) (sr_d2 s) (sr_d3 s) (sr_d4 s) (sr_delmo s) (sr_eta s) (sr_argpdot s) (sr_omgcof s) (sr_sinmao s) (sr_t s) (sr_t2cof s) (sr_t3cof s) (sr_t4cof s) (sr_t5cof s) (sr_x1mth2 s) (sr_x7thm1 s) (sr_mdot s) (sr_nodedot s) (sr_xlcof s) (sr_xmcof s) (sr_nodecf s) (sr_irez s) (sr_d2201 s) (sr_d2211 s) (sr_d3210 s) (sr_d3222 s) (sr_d4410 s) (sr_d4422 s) (sr_d5220 s) (sr_d5232 s) (sr_d5421 s) (sr_d5433 s) (sr_dedt s) (sr_del1 s) (sr_del2 s) (sr_del3 s) (sr_didt s) (sr_dmdt s) (sr_dnodt s) (sr_domdt s) (sr_e3 s) (sr_ee2 s) (sr_peo s) v (sr_pho s) (sr_pinco s) (sr_plo s) (sr_se2 s) (sr_se3 s) (sr_sgh2 s) (sr_sgh3 s) (sr_sgh4 s) (sr_sh2 s) (sr_sh3 s) (sr_si2 s) (sr_si3 s) (sr_sl2 s) (sr_sl3 s) (sr_sl4 s) (sr_gsto s) (sr_xfact s) (sr_xgh2 s) (sr_xgh3 s) (sr_xgh4 s) (sr_xh2 s) (sr_xh3 s) (sr_xi2 s) (sr_xi3 s) (sr_xl2 s) (sr_xl3 s) (sr_xl4 s) (sr_xlamo s) (sr_zmol s) (sr_zmos s) (sr_atime s) (sr_xli s) (sr_xni s).
Definition set_pho v (s : Satrec) : Satrec :=
  MkSatrec (sr_name s) (sr_init s) (sr_operationmode s) (sr_error s) (sr_satnum s) (sr_epochyr s) (sr_epochdays s) (sr_ndot s) (sr_nddot s) (sr_bstar s) (sr_inclo s) (sr_nodeo s) (sr_ecco s) (sr_mo s) (sr_no s) (sr_a s) (sr_argpo s) (sr_alta s) (sr_altp s) (sr_jdsatepoch s) (sr_isimp s) (sr_method s) (sr_aycof s) (sr_con41 s) (sr_cc1 s) (sr_cc4 s) (sr_cc5 s) (sr_d2 s) (sr_d3 s) (sr_d4 s) (sr_delmo s) (sr_eta s) (sr_argpdot s) (sr_omgcof s) (sr_sinmao s) (sr_t s) (sr_t2cof s) (sr_t3cof s) (sr_t4cof s) (sr_t5cof s) (sr_x1mth2 s) (sr_x7thm1 s) (sr_mdot s) (sr_nodedot s) (sr_xlcof s) (sr_xmcof s) (sr_nodecf s) (sr_irez s) (sr_d2201 s) (sr_d2211 s) (sr_d3210 s) (sr_d3222 s) (sr_d4410 s) (sr_d4422 s) (sr_d5220 s) (sr_d5232 s) (sr_d5421 s) (sr_d5433 s) (sr_dedt s) (sr_del1 s) (sr_del2 s) (sr_del3 s) (sr_didt s) (sr_dmdt s) (sr_dnodt s) (sr_domdt s) (sr_e3 s) (sr_ee2 s) (sr_peo s) (sr_pgho s) v (sr_pinco s) (sr_plo s) (sr_se2 s) (sr_se3 s) (sr_sgh2 s) (sr_sgh3 s) (sr_sgh4 s) (sr_sh2 s) (sr_sh3 s) (sr_si2 s) (sr_si3 s) (sr_sl2 s) (sr_sl3 s) (sr_sl4 s) (sr_gsto s) (sr_xfact s) (sr_xgh2 s) (sr_xgh3 s) (sr_xgh4 s) (sr_xh2 s) (sr_xh3 s) (sr_xi2 s) (sr_xi3 s) (sr_xl2 s) (sr_xl3 s) (sr_xl4 s) (sr_xlamo s) (sr_zmol s) (sr_zmos s) (sr_atime s) (sr_xli s) (sr_xni s).
Definition set_pinco v (s : Satrec) : Satrec :=
  MkSatrec (sr_name s) (sr_init s) (sr_operationmode s) (sr_error s) (sr_satnum s) (sr_epochyr s) (sr_epochdays s) (sr_ndot s) (sr_nddot s) (sr_bstar s) (sr_inclo s) (sr_nodeo s) (sr_ecco s) (sr_mo s) (sr_no s) (sr_a s) (sr_argpo s) (sr_alta s) (sr_altp s) (sr_jdsatepoch s) (sr_isimp s) (sr_method s) (sr_aycof s) (sr_con41 s) (sr_cc1 s) (sr_cc4 s) (sr_cc5 s) (sr_d2 s) (sr_d3 s) (sr_d4 s) (sr_delmo s) (sr_eta s) (sr_argpdot s) (sr_omgcof s) (sr_sinmao s) (sr_t s) (sr_t2cof s) (sr_t3cof s) (sr_t4cof s) (sr_t5cof s) (sr_x1mth2 s) (sr_x7thm1 s) (sr_mdot s) (sr_nodedot s) (sr_xlcof s) (sr_xmcof s) (sr_nodecf s) (sr_irez s) (sr_d2201 s) (sr_d2211 s) (sr_d3210 s) (sr_d3222 s) (sr_d4410 s) (sr_d4422 s) (sr_d5220 s) (sr_d5232 s) (sr_d5421 s) (sr_d5433 s) (sr_dedt s) (sr_del1 s) (sr_del2 s) (sr_del3 s) (sr_didt s) (sr_dmdt s) (sr_dnodt s) (sr_domdt s) (sr_e3 s) (sr_ee2 s) (sr_peo s) (sr_pgho s) (sr_pho s) v (sr_plo s) (sr_se2 s) (sr_se3 s) (sr_sgh2 s) (sr_sgh3 s) (sr_sgh4 s) (sr_sh2 s) (sr_sh3 s) (sr_si2 s) (sr_si3 s) (sr_sl2 s) (sr_sl3 s) (sr_sl4 s) (sr_gsto s) (sr_xfact s) (sr_xgh2 s) (sr_xgh3 s) (sr_xgh4 s) (sr_xh2 s) (sr_xh3 s) (sr_xi2 s) (sr_xi3 s) (sr_xl2 s) (sr_xl3 s) (sr_xl4 s) (sr_xlamo s) (sr_zmol s) (sr_zmos s) (sr_atime s) (sr_xli s) (sr_xni s).
Definition set_plo v (s : Satrec) : Satrec :=
  MkSatrec (sr_name s) (sr_init s) (sr_operationmode s) (sr_error s) (sr_satnum s) (sr_epochyr s) (sr_epochdays s) (sr_ndot s) (sr_nddot s) (sr_bstar s) (sr_inclo s) (sr_nodeo s) (sr_ecco s) (sr_mo s) (sr_no s) (sr_a s) (sr_argpo s) (sr_alta s) (sr_altp s) (sr_jdsatepoch s) (sr_isimp s) (sr_method s) (sr_aycof s) (sr_con41 s) (sr_cc1 s) (sr_cc4 s) (sr_cc5 s) (sr_d2 s) (sr_d3 s) (sr_d4 s) (sr_delmo s) (sr_eta s) (sr_argpdot s) (sr_omgcof s) (sr_sinmao s) (sr_t s) (sr_t2cof s) (sr_t3cof s) (sr_t4cof s) (sr_t5cof s) (sr_x1mth2 s) (sr_x7thm1 s) (sr_mdot s) (sr_nodedot s) (sr_xlcof s) (sr_xmcof s) (sr_nodecf s) (sr_irez s) (sr_d2201 s) (sr_d2211 s) (sr_d3210 s) (sr_d3222 s) (sr_d4410 s) (sr_d4422 s) (sr_d5220 s) (sr_d5232 s) (sr_d5421 s) (sr_d5433 s) (sr_dedt s) (sr_del1 s) (sr_del2 s) (sr_del3 s) (sr_didt s) (sr_dmdt s) (sr_dnodt s) (sr_domdt s) (sr_e3 s) (sr_ee2 s) (sr_peo s) (sr_pgho s) (sr_pho s) (sr_pinco s) v (sr_se2 s) (sr_se3 s) (sr_sgh2 s) (sr_sgh3 s) (sr_sgh4 s) (sr_sh2 s) (sr_sh3 s) (sr_si2 s) (sr_si3 s) (sr_sl2 s) (sr_sl3 s) (sr_sl4 s) (sr_gsto s) (sr_xfact s) (sr_xgh2 s) (sr_xgh3 s) (sr_xgh4 s) (sr_xh2 s) (sr_xh3 s) (sr_xi2 s) (sr_xi3 s) (sr_xl2 s) (sr_xl3 s) (sr_xl4 s) (sr_xlamo s) (sr_zmol s) (sr_zmos s) (sr_atime s) (sr_xli s) (sr_xni s).
Definition set_se2 v (s : Satrec) : Satrec :=
  MkSatrec (sr_name s) (sr_init s) (sr_operationmode s) (sr_error s) (sr_satnum s) (sr_epochyr s) (sr_epochdays s) (sr_ndot s) (sr_nddot s) (sr_bstar s) (sr_inclo s) (sr_nodeo s) (sr_ecco s) (sr_mo s) (sr_no s) (sr_a s) (sr_argpo s) (sr_alta s) (sr_altp s) (sr_jdsatepoch s) (sr_isimp s) (sr_method s) (sr_aycof s) (sr_con41 s) (sr_cc1 s) (sr_cc4 s) (sr_cc5 s) (sr_d2 s) (sr_d3 s) (sr_d4 s) (sr_delmo s) (sr_eta s) (sr_argpdot s) (sr_omgcof s) (sr_sinmao s) (sr_t s) (sr_t2cof s) (sr_t3cof s) (sr_t4cof s) (sr_t5cof s) (sr_x1mth2 s) (sr_x7thm1 s) (sr_mdot s) (sr_nodedot s) (sr_xlcof s) (sr_xmcof s) (sr_nodecf s) (sr_irez s) (sr_d2201 s) (sr_d2211 s) (sr_d3210 s) (sr_d3222 s) (sr_d4410 s) (sr_d4422 s) (sr_d5220 s) (sr_d5232 s) (sr_d5421 s) (sr_d5433 s) (sr_dedt s) (sr_del1 s) (sr_del2 s) (sr_del3 s) (sr_didt s) (sr_dmdt s) (sr_dnodt s) (sr_domdt s) (sr_e3 s) (sr_ee2 s) (sr_peo s) (sr_pgho s) (sr_pho s) (sr_pinco s) (sr_plo s) v (sr_se3 s) (sr_sgh2 s) (sr_sgh3 s) (sr_sgh4 s) (sr_sh2 s) (sr_sh3 s) (sr_si2 s) (sr_si3 s) (sr_sl2 s) (sr_sl3 s) (sr_sl4 s) (sr_gsto s) (sr_xfact s) (sr_xgh2 s) (sr_xgh3 s) (sr_xgh4 s) (sr_xh2 s) (sr_xh3 s) (sr_xi2 s) (sr_xi3 s) (sr_xl2 s) (sr_xl3 s) (sr_xl4 s) (sr_xlamo s) (sr_zmol s) (sr_zmos s) (sr_atime s) (sr_xli s) (sr_xni s).
Definition set_se3 v (s : Satrec) : Satrec :=
  MkSatrec (sr_name s) (sr_init s) (sr_operationmode s) (sr_error s) (sr_satnum s) (sr_epochyr s) (sr_epochdays s) (sr_ndot s) (sr_nddot s) (sr_bstar s) (sr_inclo s) (sr_nodeo s) (sr_ecco s) (sr_mo s) (sr_no s) (sr_a s) (sr_argpo s) (sr_alta s) (sr_altp s) (sr_jdsatepoch s) (sr_isimp s) (sr_method s) (sr_aycof s) (sr_con41 s) (sr_cc1 s) (sr_cc4 s) (sr_cc5 s) (sr_d2 s) (sr_d3 s) (sr_d4 s) (sr_delmo s) (sr_eta s) (sr_argpdot s) (sr_omgcof s) (sr_sinmao s) (sr_t s) (sr_t2cof s) (sr_t3cof s) (sr_t4cof s) (sr_t5cof s) (sr_x1mth2 s) (sr_x7thm1 s) (sr_mdot s) (sr_nodedot s) (sr_xlcof s) (sr_xmcof s) (sr_nodecf s) (sr_irez s) (sr_d2201 s) (sr_d2211 s) (sr_d3210 s) (sr_d3222 s) (sr_d4410 s) (sr_d4422 s) (sr_d5220 s) (sr_d5232 s) (sr_d5421 s) (sr_d5433 s) (sr_dedt s) (sr_del1 s) (sr_del2 s) (sr_del3 s) (sr_didt s) (sr_dmdt s) (sr_dnodt s) (sr_domdt s) (sr_e3 s) (sr_ee2 s) (sr_peo s) (sr_pgho s) (sr_pho s) (sr_pinco s) (sr_plo s) (sr_se2 s) v (sr_sgh2 s) (sr_sgh3 s) (sr_sgh4 s) (sr_sh2 s) (sr_sh3 s) (sr_si2 s) (sr_si3 s) (sr_sl2 s) (sr_sl3 s) (sr_sl4 s) (sr_gsto s) (sr_xfact s) (sr_xgh2 s) (sr_xgh3 s) (sr_xgh4 s) (sr_xh2 s) (sr_xh3 s) (sr_xi2 s) (sr_xi3 s) (sr_xl2 s) (sr_xl3 s) (sr_xl4 s) (sr_xlamo s) (sr_zmol s) (sr_zmos s) (sr_atime s) (sr_xli s) (sr_xni s).
Definition set_sgh2 v (s : Satrec) : Satrec :=
  MkSatrec (sr_name s) (sr_init s) (sr_operationmode s) (sr_error s) (sr_satnum s) (sr_epochyr s) (sr_epochdays s) (sr_ndot s) (sr_nddot s) (sr_bstar s) (sr_inclo s) (sr_nodeo s) (sr_ecco s) (sr_mo s) (sr_no s) (sr_a s) (sr_argpo s) (sr_alta s) (sr_altp s) (sr_jdsatepoch s) (sr_isimp s) (sr_method s) (sr_aycof s) (sr_con41 s) (sr_cc1 s) (sr_cc4 s) (sr_cc5 s) (sr_d2 s) (sr_d3 s) (sr_d4 s) (sr_delmo s) (sr_eta s) (sr_argpdot s) (sr_omgcof s) (sr_sinmao s) (sr_t s) (sr_t2cof s) (sr_t3cof s) (sr_t4cof s) (sr_t5cof s) (sr_x1mth2 s) (sr_x7thm1 s) (sr_mdot s) (sr_nodedot s) (sr_xlcof s) (sr_xmcof s) (sr_nodecf s) (sr_irez s) (sr_d2201 s) (sr_d2211 s) (sr_d3210 s) (sr_d3222 s) (sr_d4410 s) (sr_d4422 s) (sr_d5220 s) (sr_d5232 s) (sr_d5421 s) (sr_d5433 s) (sr_dedt s) (sr_del1 s) (sr_del2 s) (sr_del3 s) (sr_didt s) (sr_dmdt s) (sr_dnodt s) (sr_domdt s) (sr_e3 s) (sr_ee2 s) (sr_peo s) (sr_pgho s) (sr_pho s) (sr_pinco s) (sr_plo s) (sr_se2 s) (sr_se3 s) v (sr_sgh3 s) (sr_sgh4 s) (sr_sh2 s) (sr_sh3 s) (sr_si2 s) (sr_si3 s) (sr_sl2 s) (sr_sl3 s) (sr_sl4 s) (sr_gsto s) (sr_xfact s) (sr_xgh2 s) (sr_xgh3 s) (sr_xgh4 s) (sr_xh2 s) (sr_xh3 s) (sr_xi2 s) (sr_xi3 s) (sr_xl2 s) (sr_xl3 s) (sr_xl4 s) (sr_xlamo s) (sr_zmol s) (sr_zmos s) (sr_atime s) (sr_xli s) (sr_xni s).
Definition set_sgh3 v (s : Satrec) : Satrec :=
  MkSatrec (sr_name s) (sr_init s) (sr_operationmode s) (sr_error s) (sr_satnum s) (sr_epochyr s) (sr_epochdays s) (sr_ndot s) (sr_nddot s) (sr_bstar s) (sr_inclo s) (sr_nodeo s) (sr_ecco s) (sr_mo s) (sr_no s) (sr_a s) (sr_argpo s) (sr_alta s) (sr_altp s) (sr_jdsatepoch s) (sr_isimp s) (sr_method s) (sr_aycof s) (sr_con41 s) (sr_cc1 s) (sr_cc4 s) (sr_cc5 s) (sr_d2 s) (sr_d3 s) (sr_d4 s) (sr_delmo s) (sr_eta s) (sr_argpdot s) (sr_omgcof s) (sr_sinmao s) (sr_t s) (sr_t2cof s) (sr_t3cof s) (sr_t4cof s) (sr_t5cof s) (sr_x1mth2 s) (sr_x7thm1 s) (sr_mdot s) (sr_nodedot s) (sr_xlcof s) (sr_xmcof s) (sr_nodecf s) (sr_irez s) (sr_d2201 s) (sr_d2211 s) (sr_d3210 s) (sr_d3222 s) (sr_d4410 s) (sr_d4422 s) (sr_d5220 s) (sr_d5232 s) (sr_d5421 s) (sr_d5433 s) (sr_dedt s) (sr_del1 s) (sr_del2 s) (sr_del3 s) (sr_didt s) (sr_dmdt s) (sr_dnodt s) (sr_domdt s) (sr_e3 s) (sr_ee2 s) (sr_peo s) (sr_pgho s) (sr_pho s) (sr_pinco s) (sr_plo s) (sr_se2 s) (sr_se3 s) (sr_sgh2 s) v (sr_sgh4 s) (sr_sh2 s) (sr_sh3 s) (sr_si2 s) (sr_si3 s) (sr_sl2 s) (sr_sl3 s) (sr_sl4 s) (sr_gsto s) (sr_xfact s) (sr_xgh2 s) (sr_xgh3 s) (sr_xgh4 s) (sr_xh2 s) (sr_xh3 s) (sr_xi2 s) (sr_xi3 s) (sr_xl2 s) (sr_xl3 s) (sr_xl4 s) (sr_xlamo s) (sr_zmol s) (sr_zmos s) (sr_atime s) (sr_xli s) (sr_xni s).
Definition set_sgh4 v (s : Satrec) : Satrec :=
  MkSatrec (sr_name s) (sr_init s) (sr_operationmode s) (sr_error s) (sr_satnum s) (sr_epochyr s) (sr_epochdays s) (sr_ndot s) (sr_nddot s) (sr_bstar s) (sr_inclo s) (sr_nodeo s) (sr_ecco s) (sr_mo s) (sr_no s) (sr_a s) (sr_argpo s) (sr_alta s) (sr_altp s) (sr_jdsatepoch s) (sr_isimp s) (sr_method s) (sr_aycof s) (sr_con41 s) (sr_cc1 s) (sr_cc4 s) (sr_cc5 s) (sr_d2 s) (sr_d3 s) (sr_d4 s) (sr_delmo s) (sr_eta s) (sr_argpdot s) (sr_omgcof s) (sr_sinmao s) (sr_t s) (sr_t2cof s) (sr_t3cof s) (sr_t4cof s) (sr_t5cof s) (sr_x1mth2 s) (sr_x7thm1 s) (sr_mdot s) (sr_nodedot s) (sr_xlcof s) (sr_xmcof s) (sr_nodecf s) (sr_irez s) (sr_d2201 s) (sr_d2211 s) (sr_d3210 s) (sr_d3222 s) (sr_d4410 s) (sr_d4422 s) (sr_d5220 s) (sr_d5232 s) (sr_d5421 s) (sr_d5433 s) (sr_dedt s) (sr_del1 s) (sr_del2 s) (sr_del3 s) (sr_didt s) (sr_dmdt s) (sr_dnodt s) (sr_domdt s) (sr_e3 s) (sr_ee2 s) (sr_peo s) (sr_pgho s) (sr_pho s) (sr_pinco s) (sr_plo s) (sr_se2 s) (sr_se3 s) (sr_sgh2 s) (sr_sgh3 s) v (sr_sh2 s) (sr_sh3 s) (sr_si2 s) (sr_si3 s) (sr_sl2 s) (sr_sl3 s) (sr_sl4 s) (sr_gsto s) (sr_xfact s) (sr_xgh2 s) (sr_xgh3 s) (sr_xgh4 s) (sr_xh2 s) (sr_xh3 s) (sr_xi2 s) (sr_xi3 s) (sr_xl2 s) (sr_xl3 s) (sr_xl4 s) (sr_xlamo s) (sr_zmol s) (sr_zmos s) (sr_atime s) (sr_xli s) (sr_xni s).
Definition set_sh2 v (s : Satrec) : Satrec :=
  MkSatrec (sr_name s) (sr_init s) (sr_operationmode s) (sr_error s) (sr_satnum s) (sr_epochyr s) (sr_epochdays s) (sr_ndot s) (sr_nddot s) (sr_bstar s) (sr_inclo s) (sr_nodeo s) (sr_ecco s) (sr_mo s) (sr_no s) (sr_a s) (sr_argpo s) (sr_alta s) (sr_altp s) (sr_jdsatepoch s) (sr_isimp s) (sr_method s) (sr_aycof s) (sr_con41 s) (sr_cc1 s) (sr_cc4 s) (sr_cc5 s) (sr_d2 s) (sr_d3 s) (sr_d4 s) (sr_delmo s) (sr_eta s) (sr_argpdot s) (sr_omgcof s) (sr_sinmao s) (sr_t s) (sr_t2cof s) (sr_t3cof s) (sr_t4cof s) (sr_t5cof s) (sr_x1mth2 s) (sr_x7thm1 s) (sr_mdot s) (sr_nodedot s) (sr_xlcof s) (sr_xmcof s) (sr_nodecf s) (sr_irez s) (sr_d2201 s) (sr_d2211 s) (sr_d3210 s) (sr_d3222 s) (sr_d4410 s) (sr_d4422 s) (sr_d5220 s) (sr_d5232 s) (sr_d5421 s) (sr_d5433 s) (sr_dedt s) (sr_del1 s) (sr_del2 s) (sr_del3 s) (sr_didt s) (sr_dmdt s) (sr_dnodt s) (sr_domdt s) (sr_e3 s) (sr_ee2 s) (sr_peo s) (sr_pgho s) (sr_pho s) (sr_pinco s) (sr_plo s) (sr_se2 s) (sr_se3 s) (sr_sgh2 s) (sr_sgh3 s) (sr_sgh4 s) v (sr_sh3 s) (sr_si2 s) (sr_si3 s) (sr_sl2 s) (sr_sl3 s) (sr_sl4 s) (sr_gsto s) (sr_xfact s) (sr_xgh2 s) (sr_xgh3 s) (sr_xgh4 s) (sr_xh2 s) (sr_xh3 s) (sr_xi2 s) (sr_xi3 s) (sr_xl2 s) (sr_xl3 s) (sr_xl4 s) (sr_xlamo s) (sr_zmol s) (sr_zmos s) (sr_atime s) (sr_xli s) (sr_xni s).
Definition set_sh3 v (s : Satrec) : Satrec :=
  MkSatrec (sr_name s) (sr_init s) (sr_operationmode s) (sr_error s) (sr_satnum s) (sr_epochyr s) (sr_epochdays s) (sr_ndot s) (sr_nddot s) (sr_bstar s) (sr_inclo s) (sr_nodeo s) (sr_ecco s) (sr_mo s) (sr_no s) (sr_a s) (sr_argpo s) (sr_alta s) (sr_altp s) (sr_jdsatepoch s) (sr_isimp s) (sr_method s) (sr_aycof s) (sr_con41 s) (sr_cc1 s) (sr_cc4 s) (sr_cc5 s) (sr_d2 s) (sr_d3 s) (sr_d4 s) (sr_delmo s) (sr_eta s) (sr_argpdot s) (sr_omgcof s) (sr_sinmao s) (sr_t s) (sr_t2cof s) (sr_t3cof s) (sr_t4cof s) (sr_t5cof s) (sr_x1mth2 s) (sr_x7thm1 s) (sr_mdot s) (sr_nodedot s) (sr_xlcof s) (sr_xmcof s) (sr_nodecf s) (sr_irez s) (sr_d2201 s) (sr_d2211 s) (sr_d3210 s) (sr_d3222 s) (sr_d4410 s) (sr_d4422 s) (sr_d5220 s) (sr_d5232 s) (sr_d5421 s) (sr_d5433 s) (sr_dedt s) (sr_del1 s) (sr_del2 s) (sr_del3 s) (sr_didt s) (sr_dmdt s) (sr_dnodt s) (sr_domdt s) (sr_e3 s) (sr_ee2 s) (sr_peo s) (sr_pgho s) (sr_pho s) (sr_pinco s) (sr_plo s) (sr_se2 s) (sr_se3 s) (sr_sgh2 s) (sr_sgh3 s) (sr_sgh4 s) (sr_sh2 s) v (sr_si2 s) (sr_si3 s) (sr_sl2 s) (sr_sl3 s) (sr_sl4 s) (sr_gsto s) (sr_xfact s) (sr_xgh2 s) (sr_xgh3 s) (sr_xgh4 s) (sr_xh2 s) (sr_xh3 s) (sr_xi2 s) (sr_xi3 s) (sr_xl2 s) (sr_xl3 s) (sr_xl4 s) (sr_xlamo s) (sr_zmol s) (sr_zmos s) (sr_atime s) (sr_xli s) (sr_xni s).
Definition set_si2 v (s : Satrec) : Satrec :=
  MkSatrec (sr_name s) (sr_init s) (sr_operationmode s) (sr_error s) (sr_satnum s) (sr_epochyr s) (sr_epochdays s) (sr_ndot s) (sr_nddot s) (sr_bstar s) (sr_inclo s) (sr_nodeo s) (sr_ecco s) (sr_mo s) (sr_no s) (sr_a s) (sr_argpo s) (sr_alta s) (sr_altp s) (sr_jdsatepoch s) (sr_isimp s) (sr_method s) (sr_aycof s) (sr_con41 s) (sr_cc1 s) (sr_cc4 s) (sr_cc5 s) (sr_d2 s) (sr_d3 s) (sr_d4 s) (sr_delmo s) (sr_eta s) (sr_argpdot s) (sr_omgcof s) (sr_sinmao s) (sr_t s) (sr_t2cof s) (sr_t3cof s) (sr_t4cof s) (sr_t5cof s) (sr_x1mth2 s) (sr_x7thm1 s) (sr_mdot s) (sr_nodedot s) (sr_xlcof s) (sr_xmcof s) (sr_nodecf s) (sr_irez s) (sr_d2201 s) (sr_d2211 s) (sr_d3210 s) (sr_d3222 s) (sr_d4410 s) (sr_d4422 s) (sr_d5220 s) (sr_d5232 s) (sr_d5421 s) (sr_d5433 s) (sr_dedt s) (sr_del1 s) (sr_del2 s) (sr_del3 s) (sr_didt s) (sr_dmdt s) (sr_dnodt s) (sr_domdt s) (sr_e3 s) (sr_ee2 s) (sr_peo s) (sr_pgho s) (sr_pho s) (sr_pinco s) (sr_plo s) (sr_se2 s) (sr_se3 s) (sr_sgh2 s) (sr_sgh3 s) (sr_sgh4 s) (sr_sh2 s) (sr_sh3 s) v (sr_si3 s) (sr_sl2 s) (sr_sl3 s) (sr_sl4 s) (sr_gsto s) (sr_xfact s) (sr_xgh2 s) (sr_xgh3 s) (sr_xgh4 s) (sr_xh2 s) (sr_xh3 s) (sr_xi2 s) (sr_xi3 s) (sr_xl2 s) (sr_xl3 s) (sr_xl4 s) (sr_xlamo s) (sr_zmol s) (sr_zmos s) (sr_atime s) (sr_xli s) (sr_xni s).
Definition set_si3 v (s : Satrec) : Satrec :=
  MkSatrec (sr_name s) (sr_init s) (sr_operationmode s) (sr_error s) (sr_satnum s) (sr_epochyr s) (sr_epochdays s) (sr_ndot s) (sr_nddot s) (sr_bstar s) (sr_inclo s) (sr_nodeo s) (sr_ecco s) (sr_mo s) (sr_no s) (sr_a s) (sr_argpo s) (sr_alta s) (sr_altp s) (sr_jdsatepoch s) (sr_isimp s) (sr_method s) (sr_aycof s) (sr_con41 s) (sr_cc1 s) (sr_cc4 s) (sr_cc5 s) (sr_d2 s) (sr_d3 s) (sr_d4 s) (sr_delmo s) (sr_eta s) (sr_argpdot s) (sr_omgcof s) (sr_sinmao s) (sr_t s) (sr_t2cof s) (sr_t3cof s) (sr_t4cof s) (sr_t5cof s) (sr_x1mth2 s) (sr_x7thm1 s) (sr_mdot s) (sr_nodedot s) (sr_xlcof s) (sr_xmcof s) (sr_nodecf s) (sr_irez s) (sr_d2201 s) (sr_d2211 s) (sr_d3210 s) (sr_d3222 s) (sr_d4410 s) (sr_d4422 s) (sr_d5220 s) (sr_d5232 s) (sr_d5421 s) (sr_d5433 s) (sr_dedt s) (sr_del1 s) (sr_del2 s) (sr_del3 s) (sr_didt s) (sr_dmdt s) (sr_dnodt s) (sr_domdt s) (sr_e3 s) (sr_ee2 s) (sr_peo s) (sr_pgho s) (sr_pho s) (sr_pinco s) (sr_plo s) (sr_se2 s) (sr_se3 s) (sr_sgh2 s) (sr_sgh3 s) (sr_sgh4 s) (sr_sh2 s) (sr_sh3 s) (sr_si2 s) v (sr_sl2 s) (sr_sl3 s) (sr_sl4 s) (sr_gsto s) (sr_xfact s) (sr_xgh2 s) (sr_xgh3 s) (sr_xgh4 s) (sr_xh2 s) (sr_xh3 s) (sr_xi2 s) (sr_xi3 s) (sr_xl2 s) (sr_xl3 s) (sr_xl4 s) (sr_xlamo s) (sr_zmol s) (sr_zmos s) (sr_atime s) (sr_xli s) (sr_xni s).
Definition set_sl2 v (s : Satrec) : Satrec :=
  MkSatrec (sr_name s) (sr_init s) (sr_operationmode s) (sr_error s) (sr_satnum s) (sr_epochyr s) (sr_epochdays s) (sr_ndot s) (sr_nddot s) (sr_bstar s) (sr_inclo s) (sr_nodeo s) (sr_ecco s) (sr_mo s) (sr_no s) (sr_a s) (sr_argpo s) (sr_alta s) (sr_altp s) (sr_jdsatepoch s) (sr_isimp s) (sr_method s) (sr_aycof s) (sr_con41 s) (sr_cc1 s) (sr_cc4 s) (sr_cc5 s) (sr_d2 s) (sr_d3 s) (sr_d4 s) (sr_delmo s) (sr_eta s) (sr_argpdot s) (sr_omgcof s) (sr_sinmao s) (sr_t s) (sr_t2cof s) (sr_t3cof s) (sr_t4cof s) (sr_t5cof s) (sr_x1mth2 s) (sr_x7thm1 s) (sr_mdot s) (sr_nodedot s) (sr_xlcof s) (sr_xmcof s) (sr_nodecf s) (sr_irez s) (sr_d2201 s) (sr_d2211 s) (sr_d3210 s) (sr_d3222 s) (sr_d4410 s) (sr_d4422 s) (sr_d5220 s) (sr_d5232 s) (sr_d5421 s) (sr_d5433 s) (sr_dedt s) (sr_del1 s) (sr_del2 s) (sr_del3 s) (sr_didt s) (sr_dmdt s) (sr_dnodt s) (sr_domdt s) (sr_e3 s) (sr_ee2 s) (sr_peo s) (sr_pgho s) (sr_pho s) (sr_pinco s) (sr_plo s) (sr_se2 s) (sr_se3 s) (sr_sgh2 s) (sr_sgh3 s) (sr_sgh4 s) (sr_sh2 s) (sr_sh3 s) (sr_si2 s) (sr_si3 s) v (sr_sl3 s) (sr_sl4 s) (sr_gsto s) (sr_xfact s) (sr_xgh2 s) (sr_xgh3 s) (sr_xgh4 s) (sr_xh2 s) (sr_xh3 s) (sr_xi2 s) (sr_xi3 s) (sr_xl2 s) (sr_xl3 s) (sr_xl4 s) (sr_xlamo s) (sr_zmol s) (sr_zmos s) (sr_atime s) (sr_xli s) (sr_xni s).
Definition set_sl3 v (s : Satrec) : Satrec :=
  MkSatrec (sr_name s) (sr_init s) (sr_operationmode s) (sr_error s) (sr_satnum s) (sr_epochyr s) (sr_epochdays s) (sr_ndot s) (sr_nddot s) (sr_bstar s) (sr_inclo s) (sr_nodeo s) (sr_ecco s) (sr_mo s) (sr_no s) (sr_a s) (sr_argpo s) (sr_alta s) (sr_altp s) (sr_jdsatepoch s) (sr_isimp s) (sr_method s) (sr_aycof s) (sr_con41 s) (sr_cc1 s) (sr_cc4 s) (sr_cc5 s) (sr_d2 s) (sr_d3 s) (sr_d4 s) (sr_delmo s) (sr_eta s) (sr_argpdot s) (sr_omgcof s) (sr_sinmao s) (sr_t s) (sr_t2cof s) (sr_t3cof s) (sr_t4cof s) (sr_t5cof s) (sr_x1mth2 s) (sr_x7thm1 s) (sr_mdot s) (sr_nodedot s) (sr_xlcof s) (sr_xmcof s) (sr_nodecf s) (sr_irez s) (sr_d2201 s) (sr_d2211 s) (sr_d3210 s) (sr_d3222 s) (sr_d4410 s) (sr_d4422 s) (sr_d5220 s) (sr_d5232 s) (sr_d5421 s) (sr_d5433 s) (sr_dedt s) (sr_del1 s) (sr_del2 s) (sr_del3 s) (sr_didt s) (sr_dmdt s) (sr_dnodt s) (sr_domdt s) (sr_e3 s) (sr_ee2 s) (sr_peo s) (sr_pgho s) (sr_pho s) (sr_pinco s) (sr_plo s) (sr_se2 s) (sr_se3 s) (sr_sgh2 s) (sr_sgh3 s) (sr_sgh4 s) (sr_sh2 s) (sr_sh3 s) (sr_si2 s) (sr_si3 s) (sr_sl2 s) v (sr_sl4 s) (sr_gsto s) (sr_xfact s) (sr_xgh2 s) (sr_xgh3 s) (sr_xgh4 s) (sr_xh2 s) (sr_xh3 s) (sr_xi2 s) (sr_xi3 s) (sr_xl2 s) (sr_xl3 s) (sr_xl4 s) (sr_xlamo s) (sr_zmol s) (sr_zmos s) (sr_atime s) (sr_xli s) (sr_xni s).
Definition set_sl4 v (s : Satrec) : Satrec :=
  MkSatrec (sr_name s) (sr_init s) (sr_operationmode s) (sr_error s) (sr_satnum s) (sr_epochyr s) (sr_epochdays s) (sr_ndot s) (sr_nddot s) (sr_bstar s) (sr_inclo s) (sr_nodeo s) (sr_ecco s) (sr_mo s) (sr_no s) (sr_a s) (sr_argpo s) (sr_alta s) (sr_altp s) (sr_jdsatepoch s) (sr_isimp s) (sr_method s) (sr_aycof s) (sr_con41 s) (sr_cc1 s) (sr_cc4 s) (sr_cc5 s) (sr_d2 s) (sr_d3 s) (sr_d4 s) (sr_delmo s) (sr_eta s) (sr_argpdot s) (sr_omgcof s) (sr_sinmao s) (sr_t s) (sr_t2cof s) (sr_t3cof s) (sr_t4cof s) (sr_t5cof s) (sr_x1mth2 s) (sr_x7thm1 s) (sr_mdot s) (sr_nodedot s) (sr_xlcof s) (sr_xmcof s) (sr_nodecf s) (sr_irez s) (sr_d2201 s) (sr_d2211 s) (sr_d3210 s) (sr_d3222 s) (sr_d4410 s) (sr_d4422 s) (sr_d5220 s) (sr_d5232 s) (sr_d5421 s) (sr_d5433 s) (sr_dedt s) (sr_del1 s) (sr_del2 s) (sr_del3 s) (sr_didt s) (sr_dmdt s) (sr_dnodt s) (sr_domdt s) (sr_e3 s) (sr_ee2 s) (sr_peo s) (sr_pgho s) (sr_pho s) (sr_pinco s) (sr_plo s) (sr_se2 s) (sr_se3 s) (sr_sgh2 s) (sr_sgh3 s) (sr_sgh4 s) (sr_sh2 s) (sr_sh3 s) (sr_si2 s) (sr_si3 s) (sr_sl2 s) (sr_sl3 s) v (sr_gsto s) (sr_xfact s) (sr_xgh2 s) (sr_xgh3 s) (sr_xgh4 s) (sr_xh2 s) (sr_xh3 s) (sr_xi2 s) (sr_xi3 s) (sr_xl2 s) (sr_xl3 s) (sr_xl4 s) (sr_xlamo s) (sr_zmol s) (sr_zmos s) (sr_atime s) (sr_xli s) (sr_xni s).
Definition set_gsto v (s : Satrec) : Satrec :=
  MkSatrec (sr_name s) (sr_init s) (sr_operationmode s) (sr_error s) (sr_satnum s) (sr_epochyr s) (sr_epochdays s) (sr_ndot s) (sr_nddot s) (sr_bstar s) (sr_inclo s) (sr_nodeo s) (sr_ecco s) (sr_mo s) (sr_no s) (sr_a s) (sr_argpo s) (sr_alta s) (sr_altp s) (sr_jdsatepoch s) (sr_isimp s) (sr_method s) (sr_aycof s) (sr_con41 s) (sr_cc1 s) (sr_cc4 s) (sr_cc5 s) (sr_d2 s) (sr_d3 s) (sr_d4 s) (sr_delmo s) (sr_eta s) (sr_argpdot s) (sr_omgcof s) (sr_sinmao s) (sr_t s) (sr_t2cof s) (sr_t3cof s) (sr_t4cof s) (sr_t5cof s) (sr_x1mth2 s) (sr_x7thm1 s) (sr_mdot s) (sr_nodedot s) (sr_xlcof s) (sr_xmcof s) (sr_nodecf s) (sr_irez s) (sr_d2201 s) (sr_d2211 s) (sr_d3210 s) (sr_d3222 s) (sr_d4410 s) (sr_d4422 s) (sr_d5220 s) (sr_d5232 s) (sr_d5421 s) (sr_d5433 s) (sr_dedt s) (sr_del1 s) (sr_del2 s) (sr_del3 s) (sr_didt s) (sr_dmdt s) (sr_dnodt s) (sr_domdt s) (sr_e3 s) (sr_ee2 s) (sr_peo s) (sr_pgho s) (sr_pho s) (sr_pinco s) (sr_plo s) (sr_se2 s) (sr_se3 s) (sr_sgh2 s) (sr_sgh3 s) (sr_sgh4 s) (sr_sh2 s) (sr_sh3 s) (sr_si2 s) (sr_si3 s) (sr_sl2 s) (sr_sl3 s) (sr_sl4 s) v (sr_xfact s) (sr_xgh2 s) (sr_xgh3 s) (sr_xgh4 s) (sr_xh2 s) (sr_xh3 s) (sr_xi2 s) (sr_xi3 s) (sr_xl2 s) (sr_xl3 s) (sr_xl4 s) (sr_xlamo s) (sr_zmol s) (sr_zmos s) (sr_atime s) (sr_xli s) (sr_xni s).
Definition set_xfact v (s : Satrec) : Satrec :=
  MkSatrec (sr_name s) (sr_init s) (sr_operationmode s) (sr_error s) (sr_satnum s) (sr_epochyr s) (sr_epochdays s) (sr_ndot s) (sr_nddot s) (sr_bstar s) (sr_inclo s) (sr_nodeo s) (sr_ecco s) (sr_mo s) (sr_no s) (sr_a s) (sr_argpo s) (sr_alta s) (sr_altp s) (sr_jdsatepoch s) (sr_isimp s) (sr_method s) (sr_aycof s) (sr_con41 s) (sr_cc1 s) (sr_cc4 s) (sr_cc5 s) (sr_d2 s) (sr_d3 s) (sr_d4 s) (sr_delmo s) (sr_eta s) (sr_argpdot s) (sr_omgcof s) (sr_sinmao s) (sr_t s) (sr_t2cof s) (sr_t3cof s) (sr_t4cof s) (sr_t5cof s) (sr_x1mth2 s) (sr_x7thm1 s) (sr_mdot s) (sr_nodedot s) (sr_xlcof s) (sr_xmcof s) (sr_nodecf s) (sr_irez s) (sr_d2201 s) (sr_d2211 s) (sr_d3210 s) (sr_d3222 s) (sr_d4410 s) (sr_d4422 s) (sr_d5220 s) (sr_d5232 s) (sr_d5421 s) (sr_d5433 s) (sr_dedt s) (sr_del1 s) (sr_del2 s) (sr_del3 s) (sr_didt s) (sr_dmdt s) (sr_dnodt s) (sr_domdt s) (sr_e3 s) (sr_ee2 s) (sr_peo s) (sr_pgho s) (sr_pho s) (sr_pinco s) (sr_plo s) (sr_se2 s) (sr_se3 s) (sr_sgh2 s) (sr_sgh3 s) (sr_sgh4 s) (sr_sh2 s) (sr_sh3 s) (sr_si2 s) (sr_si3 s) (sr_sl2 s) (sr_sl3 s) (sr_sl4 s) (sr_gsto s) v (sr_xgh2 s) (sr_xgh3 s) (sr_xgh4 s) (sr_xh2 s) (sr_xh3 s) (sr_xi2 s) (sr_xi3 s) (sr_xl2 s) (sr_xl3 s) (sr_xl4 s) (sr_xlamo s) (sr_zmol s) (sr_zmos s) (sr_atime s) (sr_xli s) (sr_xni s).
Definition set_xgh2 v (s : Satrec) : Satrec :=
  MkSatrec (sr_name s) (sr_init s) (sr_operationmode s) (sr_error s) (sr_satnum s) (sr_epochyr s) (sr_epochdays s) (sr_ndot s) (sr_nddot s) (sr_bstar s) (sr_inclo s) (sr_nodeo s) (sr_ecco s) (sr_mo s) (sr_no s) (sr_a s) (sr_argpo s) (sr_alta s) (sr_altp s) (sr_jdsatepoch s) (sr_isimp s) (sr_method s) (sr_aycof s) (sr_con41 s) (sr_cc1 s) (sr_cc4 s) (sr_cc5 s) (sr_d2 s) (sr_d3 s) (sr_d4 s) (sr_delmo s) (sr_eta s) (sr_argpdot s) (sr_omgcof s) (sr_sinmao s) (sr_t s) (sr_t2cof s) (sr_t3cof s) (sr_t4cof s) (sr_t5cof s) (sr_x1mth2 s) (sr_x7thm1 s) (sr_mdot s) (sr_nodedot s) (sr_xlcof s) (sr_xmcof s) (sr_nodecf s) (sr_irez s) (sr_d2201 s) (sr_d2211 s) (sr_d3210 s) (sr_d3222 s) (sr_d4410 s) (sr_d4422 s) (sr_d5220 s) (sr_d5232 s) (sr_d5421 s) (sr_d5433 s) (sr_dedt s) (sr_del1 s) (sr_del2 s) (sr_del3 s) (sr_didt s) (sr_dmdt s) (sr_dnodt s) (sr_domdt s) (sr_e3 s) (sr_ee2 s) (sr_peo s) (sr_pgho s) (sr_pho s) (sr_pinco s) (sr_plo s) (sr_se2 s) (sr_se3 s) (sr_sgh2 s) (sr_sgh3 s) (sr_sgh4 s) (sr_sh2 s) (sr_sh3 s) (sr_si2 s) (sr_si3 s) (sr_sl2 s) (sr_sl3 s) (sr_sl4 s) (sr_gsto s) (sr_xfact s) v (sr_xgh3 s) (sr_xgh4 s) (sr_xh2 s) (sr_xh3 s) (sr_xi2 s) (sr_xi3 s) (sr_xl2 s) (sr_xl3 s) (sr_xl4 s) (sr_xlamo s) (sr_zmol s) (sr_zmos s) (sr_atime s) (sr_xli s) (sr_xni s).
Definition set_xgh3 v (s : Satrec) : Satrec :=
  MkSatrec (sr_name s) (sr_init s) (sr_operationmode s) (sr_error s) (sr_satnum s) (sr_epochyr s) (sr_epochdays s) (sr_ndot s) (sr_nddot s) (sr_bstar s) (sr_inclo s) (sr_nodeo s) (sr_ecco s) (sr_mo s) (sr_no s) (sr_a s) (sr_argpo s) (sr_alta s) (sr_altp s) (sr_jdsatepoch s) (sr_isimp s) (sr_method s) (sr_aycof s) (sr_con41 s) (sr_cc1 s) (sr_cc4 s) (sr_cc5 s) (sr_d2 s) (sr_d3 s) (sr_d4 s) (sr_delmo s) (sr_eta s) (sr_argpdot s) (sr_omgcof s) (sr_sinmao s) (sr_t s) (sr_t2cof s) (sr_t3cof s) (sr_t4cof s) (sr_t5cof s) (sr_x1mth2 s) (sr_x7thm1 s) (sr_mdot s) (sr_nodedot s) (sr_xlcof s) (sr_xmcof s) (sr_nodecf s) (sr_irez s) (sr_d2201 s) (sr_d2211 s) (sr_d3210 s) (sr_d3222 s) (sr_d4410 s) (sr_d4422 s) (sr_d5220 s) (sr_d5232 s) (sr_d5421 s) (sr_d5433 s) (sr_dedt s) (sr_del1 s) (sr_del2 s) (sr_del3 s) (sr_didt s) (sr_dmdt s) (sr_dnodt s) (sr_domdt s) (sr_e3 s) (sr_ee2 s) (sr_peo s) (sr_pgho s) (sr_pho s) (sr_pinco s) (sr_plo s) (sr_se2 s) (sr_se3 s) (sr_sgh2 s) (sr_sgh3 s) (sr_sgh4 s) (sr_sh2 s) (sr_sh3 s) (sr_si2 s) (sr_si3 s) (sr_sl2 s) (sr_sl3 s) (sr_sl4 s) (sr_gsto s) (sr_xfact s) (sr_xgh2 s) v (sr_xgh4 s) (sr_xh2 s) (sr_xh3 s) (sr_xi2 s) (sr_xi3 s) (sr_xl2 s) (sr_xl3 s) (sr_xl4 s) (sr_xlamo s) (sr_zmol s) (sr_zmos s) (sr_atime s) (sr_xli s) (sr_xni s).
Definition set_xgh4 v (s : Satrec) : Satrec :=
  MkSatrec (sr_name s) (sr_init s) (sr_operationmode s) (sr_error s) (sr_satnum s) (sr_epochyr s) (sr_epochdays s) (sr_ndot s) (sr_nddot s) (sr_bstar s) (sr_inclo s) (sr_nodeo s) (sr_ecco s) (sr_mo s) (sr_no s) (sr_a s) (sr_argpo s) (sr_alta s) (sr_altp s) (sr_jdsatepoch s) (sr_isimp s) (sr_method s) (sr_aycof s) (sr_con41 s) (sr_cc1 s) (sr_cc4 s) (sr_cc5 s) (sr_d2 s) (sr_d3 s) (sr_d4 s) (sr_delmo s) (sr_eta s) (sr_argpdot s) (sr_omgcof s) (sr_sinmao s) (sr_t s) (sr_t2cof s) (sr_t3cof s) (sr_t4cof s) (sr_t5cof s) (sr_x1mth2 s) (sr_x7thm1 s) (sr_mdot s) (sr_nodedot s) (sr_xlcof s) (sr_xmcof s) (sr_nodecf s) (sr_irez s) (sr_d2201 s) (sr_d2211 s) (sr_d3210 s) (sr_d3222 s) (sr_d4410 s) (sr_d4422 s) (sr_d5220 s) (sr_d5232 s) (sr_d5421 s) (sr_d5433 s) (sr_dedt s) (sr_del1 s) (sr_del2 s) (sr_del3 s) (sr_didt s) (sr_dmdt s) (sr_dnodt s) (sr_domdt s) (sr_e3 s) (sr_ee2 s) (sr_peo s) (sr_pgho s) (sr_pho s) (sr_pinco s) (sr_plo s) (sr_se2 s) (sr_se3 s) (sr_sgh2 s) (sr_sgh3 s) (sr_sgh4 s) (sr_sh2 s) (sr_sh3 s) (sr_si2 s) (sr_si3 s) (sr_sl2 s) (sr_sl3 s) (sr_sl4 s) (sr_gsto s) (sr_xfact s) (sr_xgh2 s) (sr_xgh3 s) v (sr_xh2 s) (sr_xh3 s) (sr_xi2 s) (sr_xi3 s) (sr_xl2 s) (sr_xl3 s) (sr_xl4 s) (sr_xlamo s) (sr_zmol s) (sr_zmos s) (sr_atime s) (sr_xli s) (sr_xni s).
Definition set_xh2 v (s : Satrec) : Satrec :=
  MkSatrec (sr_name s) (sr_init s) (sr_operationmode s) (sr_error s) (sr_satnum s) (sr_epochyr s) (sr_epochdays s) (sr_ndot s) (sr_nddot s) (sr_bstar s) (sr_inclo s) (sr_nodeo s) (sr_ecco s) (sr_mo s) (sr_no s) (sr_a s) (sr_argpo s) (sr_alta s) (sr_altp s) (sr_jdsatepoch s) (sr_isimp s) (sr_method s) (sr_aycof s) (sr_con41 s) (sr_cc1 s) (sr_cc4 s) (sr_cc5 s) (sr_d2 s) (sr_d3 s) (sr_d4 s) (sr_delmo s) (sr_eta s) (sr_argpdot s) (sr_omgcof s) (sr_sinmao s) (sr_t s) (sr_t2cof s) (sr_t3cof s) (sr_t4cof s) (sr_t5cof s) (sr_x1mth2 s) (sr_x7thm1 s) (sr_mdot s) (sr_nodedot s) (sr_xlcof s) (sr_xmcof s) (sr_nodecf s) (sr_irez s) (sr_d2201 s) (sr_d2211 s) (sr_d3210 s) (sr_d3222 s) (sr_d4410 s) (sr_d4422 s) (sr_d5220 s) (sr_d5232 s) (sr_d5421 s) (sr_d5433 s) (sr_dedt s) (sr_del1 s) (sr_del2 s) (sr_del3 s) (sr_didt s) (sr_dmdt s) (sr_dnodt s) (sr_domdt s) (sr_e3 s) (sr_ee2 s) (sr_peo s) (sr_pgho s) (sr_pho s) (sr_pinco s) (sr_plo s) (sr_se2 s) (sr_se3 s) (sr_sgh2 s) (sr_sgh3 s) (sr_sgh4 s) (sr_sh2 s) (sr_sh3 s) (sr_si2 s) (sr_si3 s) (sr_sl2 s) (sr_sl3 s) (sr_sl4 s) (sr_gsto s) (sr_xfact s) (sr_xgh2 s) (sr_xgh3 s) (sr_xgh4 s) v (sr_xh3 s) (sr_xi2 s) (sr_xi3 s) (sr_xl2 s) (sr_xl3 s) (sr_xl4 s) (sr_xlamo s) (sr_zmol s) (sr_zmos s) (sr_atime s) (sr_xli s) (sr_xni s).
Definition set_xh3 v (s : Satrec) : Satrec :=
  MkSatrec (sr_name s) (sr_init s) (sr_operationmode s) (sr_error s) (sr_satnum s) (sr_epochyr s) (sr_epochdays s) (sr_ndot s) (sr_nddot s) (sr_bstar s) (sr_inclo s) (sr_nodeo s) (sr_ecco s) (sr_mo s) (sr_no s) (sr_a s) (sr_argpo s) (sr_alta s) (sr_altp s) (sr_jdsatepoch s) (sr_isimp s) (sr_method s) (sr_aycof s) (sr_con41 s) (sr_cc1 s) (sr_cc4 s) (sr_cc5 s) (sr_d2 s) (sr_d3 s) (sr_d4 s) (sr_delmo s) (sr_eta s) (sr_argpdot s) (sr_omgcof s) (sr_sinmao s) (sr_t s) (sr_t2cof s) (sr_t3cof s) (sr_t4cof s) (sr_t5cof s) (sr_x1mth2 s) (sr_x7thm1 s) (sr_mdot s) (sr_nodedot s) (sr_xlcof s) (sr_xmcof s) (sr_nodecf s) (sr_irez s) (sr_d2201 s) (sr_d2211 s) (sr_d3210 s) (sr_d3222 s) (sr_d4410 s) (sr_d4422 s) (sr_d5220 s) (sr_d5232 s) (sr_d5421 s) (sr_d5433 s) (sr_dedt s) (sr_del1 s) (sr_del2 s) (sr_del3 s) (sr_didt s) (sr_dmdt s) (sr_dnodt s) (sr_domdt s) (sr_e3 s) (sr_ee2 s) (sr_peo s) (sr_pgho s) (sr_pho s) (sr_pinco s) (sr_plo s) (sr_se2 s) (sr_se3 s) (sr_sgh2 s) (sr_sgh3 s) (sr_sgh4 s) (sr_sh2 s) (sr_sh3 s) (sr_si2 s) (sr_si3 s) (sr_sl2 s) (sr_sl3 s) (sr_sl4 s) (sr_gsto s) (sr_xfact s) (sr_xgh2 s) (sr_xgh3 s) (sr_xgh4 s) (sr_xh2 s) v (sr_xi2 s) (sr_xi3 s) (sr_xl2 s) (sr_xl3 s) (sr_xl4 s) (sr_xlamo s) (sr_zmol s) (sr_zmos s) (sr_atime s) (sr_xli s) (sr_xni s).
Definition set_xi2 v (s : Satrec) : Satrec :=
  MkSatrec (sr_name s) (sr_init s) (sr_operationmode s) (sr_error s) (sr_satnum s) (sr_epochyr s) (sr_epochdays s) (sr_ndot s) (sr_nddot s) (sr_bstar s) (sr_inclo s) (sr_nodeo s) (sr_ecco s) (sr_mo s) (sr_no s) (sr_a s) (sr_argpo s) (sr_alta s) (sr_altp s) (sr_jdsatepoch s) (sr_isimp s) (sr_method s) (sr_aycof s) (sr_con41 s) (sr_cc1 s) (sr_cc4 s) (sr_cc5 s) (sr_d2 s) (sr_d3 s) (sr_d4 s) (sr_delmo s) (sr_eta s) (sr_argpdot s) (sr_omgcof s) (sr_sinmao s) (sr_t s) (sr_t2cof s) (sr_t3cof s) (sr_t4cof s) (sr_t5cof s) (sr_x1mth2 s) (sr_x7thm1 s) (sr_mdot s) (sr_nodedot s) (sr_xlcof s) (sr_xmcof s) (sr_nodecf s) (sr_irez s) (sr_d2201 s) (sr_d2211 s) (sr_d3210 s) (sr_d3222 s) (sr_d4410 s) (sr_d4422 s) (sr_d5220 s) (sr_d5232 s) (sr_d5421 s) (sr_d5433 s) (sr_dedt s) (sr_del1 s) (sr_del2 s) (sr_del3 s) (sr_didt s) (sr_dmdt s) (sr_dnodt s) (sr_domdt s) (sr_e3 s) (sr_ee2 s) (sr_peo s) (sr_pgho s) (sr_pho s) (sr_pinco s) (sr_plo s) (sr_se2 s) (sr_se3 s) (sr_sgh2 s) (sr_sgh3 s) (sr_sgh4 s) (sr_sh2 s) (sr_sh3 s) (sr_si2 s) (sr_si3 s) (sr_sl2 s) (sr_sl3 s) (sr_sl4 s) (sr_gsto s) (sr_xfact s) (sr_xgh2 s) (sr_xgh3 s) (sr_xgh4 s) (sr_xh2 s) (sr_xh3 s) v (sr_xi3 s) (sr_xl2 s) (sr_xl3 s) (sr_xl4 s) (sr_xlamo s) (sr_zmol s) (sr_zmos s) (sr_atime s) (sr_xli s) (sr_xni s).
Definition set_xi3 v (s : Satrec) : Satrec :=
  MkSatrec (sr_name s) (sr_init s) (sr_operationmode s) (sr_error s) (sr_satnum s) (sr_epochyr s) (sr_epochdays s) (sr_ndot s) (sr_nddot s) (sr_bstar s) (sr_inclo s) (sr_nodeo s) (sr_ecco s) (sr_mo s) (sr_no s) (sr_a s) (sr_argpo s) (sr_alta s) (sr_altp s) (sr_jdsatepoch s) (sr_isimp s) (sr_method s) (sr_aycof s) (sr_con41 s) (sr_cc1 s) (sr_cc4 s) (sr_cc5 s) (sr_d2 s) (sr_d3 s) (sr_d4 s) (sr_delmo s) (sr_eta s) (sr_argpdot s) (sr_omgcof s) (sr_sinmao s) (sr_t s) (sr_t2cof s) (sr_t3cof s) (sr_t4cof s) (sr_t5cof s) (sr_x1mth2 s) (sr_x7thm1 s) (sr_mdot s) (sr_nodedot s) (sr_xlcof s) (sr_xmcof s) (sr_nodecf s) (sr_irez s) (sr_d2201 s) (sr_d2211 s) (sr_d3210 s) (sr_d3222 s) (sr_d4410 s) (sr_d4422 s) (sr_d5220 s) (sr_d5232 s) (sr_d5421 s) (sr_d5433 s) (sr_dedt s) (sr_del1 s) (sr_del2 s) (sr_del3 s) (sr_didt s) (sr_dmdt s) (sr_dnodt s) (sr_domdt s) (sr_e3 s) (sr_ee2 s) (sr_peo s) (sr_pgho s) (sr_pho s) (sr_pinco s) (sr_plo s) (sr_se2 s) (sr_se3 s) (sr_sgh2 s) (sr_sgh3 s) (sr_sgh4 s) (sr_sh2 s) (sr_sh3 s) (sr_si2 s) (sr_si3 s) (sr_sl2 s) (sr_sl3 s) (sr_sl4 s) (sr_gsto s) (sr_xfact s) (sr_xgh2 s) (sr_xgh3 s) (sr_xgh4 s) (sr_xh2 s) (sr_xh3 s) (sr_xi2 s) v (sr_xl2 s) (sr_xl3 s) (sr_xl4 s) (sr_xlamo s) (sr_zmol s) (sr_zmos s) (sr_atime s) (sr_xli s) (sr_xni s).
Definition set_xl2 v (s : Satrec) : Satrec :=
  MkSatrec (sr_name s) (sr_init s) (sr_operationmode s) (sr_error s) (sr_satnum s) (sr_epochyr s) (sr_epochdays s) (sr_ndot s) (sr_nddot s) (sr_bstar s) (sr_inclo s) (sr_nodeo s) (sr_ecco s) (sr_mo s) (sr_no s) (sr_a s) (sr_argpo s) (sr_alta s) (sr_altp s) (sr_jdsatepoch s) (sr_isimp s) (sr_method s) (sr_aycof s) (sr_con41 s) (sr_cc1 s) (sr_cc4 s) (sr_cc5 s) (sr_d2 s) (sr_d3 s) (sr_d4 s) (sr_delmo s) (sr_eta s) (sr_argpdot s) (sr_omgcof s) (sr_sinmao s) (sr_t s) (sr_t2cof s) (sr_t3cof s) (sr_t4cof s) (sr_t5cof s) (sr_x1mth2 s) (sr_x7thm1 s) (sr_mdot s) (sr_nodedot s) (sr_xlcof s) (sr_xmcof s) (sr_nodecf s) (sr_irez s) (sr_d2201 s) (sr_d2211 s) (sr_d3210 s) (sr_d3222 s) (sr_d4410 s) (sr_d4422 s) (sr_d5220 s) (sr_d5232 s) (sr_d5421 s) (sr_d5433 s) (sr_dedt s) (sr_del1 s) (sr_del2 s) (sr_del3 s) (sr_didt s) (sr_dmdt s) (sr_dnodt s) (sr_domdt s) (sr_e3 s) (sr_ee2 s) (sr_peo s) (sr_pgho s) (sr_pho s) (sr_pinco s) (sr_plo s) (sr_se2 s) (sr_se3 s) (sr_sgh2 s) (sr_sgh3 s) (sr_sgh4 s) (sr_sh2 s) (sr_sh3 s) (sr_si2 s) (sr_si3 s) (sr_sl2 s) (sr_sl3 s) (sr_sl4 s) (sr_gsto s) (sr_xfact s) (sr_xgh2 s) (sr_xgh3 s) (sr_xgh4 s) (sr_xh2 s) (sr_xh3 s) (sr_xi2 s) (sr_xi3 s) v (sr_xl3 s) (sr_xl4 s) (sr_xlamo s) (sr_zmol s) (sr_zmos s) (sr_atime s) (sr_xli s) (sr_xni s).
Definition set_xl3 v (s : Satrec) : Satrec :=
  MkSatrec (sr_name s) (sr_init s) (sr_operationmode s) (sr_error s) (sr_satnum s) (sr_epochyr s) (sr_epochdays s) (sr_ndot s) (sr_nddot s) (sr_bstar s) (sr_inclo s) (sr_nodeo s) (sr_ecco s) (sr_mo s) (sr_no s) (sr_a s) (sr_argpo s) (sr_alta s) (sr_altp s) (sr_jdsatepoch s) (sr_isimp s) (sr_method s) (sr_aycof s) (sr_con41 s) (sr_cc1 s) (sr_cc4 s) (sr_cc5 s) (sr_d2 s) (sr_d3 s) (sr_d4 s) (sr_delmo s) (sr_eta s) (sr_argpdot s) (sr_omgcof s) (sr_sinmao s) (sr_t s) (sr_t2cof s) (sr_t3cof s) (sr_t4cof s) (sr_t5cof s) (sr_x1mth2 s) (sr_x7thm1 s) (sr_mdot s) (sr_nodedot s) (sr_xlcof s) (sr_xmcof s) (sr_nodecf s) (sr_irez s) (sr_d2201 s) (sr_d2211 s) (sr_d3210 s) (sr_d3222 s) (sr_d4410 s) (sr_d4422 s) (sr_d5220 s) (sr_d5232 s) (sr_d5421 s) (sr_d5433 s) (sr_dedt s) (sr_del1 s) (sr_del2 s) (sr_del3 s) (sr_didt s) (sr_dmdt s) (sr_dnodt s) (sr_domdt s) (sr_e3 s) (sr_ee2 s) (sr_peo s) (sr_pgho s) (sr_pho s) (sr_pinco s) (sr_plo s) (sr_se2 s) (sr_se3 s) (sr_sgh2 s) (sr_sgh3 s) (sr_sgh4 s) (sr_sh2 s) (sr_sh3 s) (sr_si2 s) (sr_si3 s) (sr_sl2 s) (sr_sl3 s) (sr_sl4 s) (sr_gsto s) (sr_xfact s) (sr_xgh2 s) (sr_xgh3 s) (sr_xgh4 s) (sr_xh2 s) (sr_xh3 s) (sr_xi2 s) (sr_xi3 s) (sr_xl2 s) v (sr_xl4 s) (sr_xlamo s) (sr_zmol s) (sr_zmos s) (sr_atime s) (sr_xli s) (sr_xni s).
Definition set_xl4 v (s : Satrec) : Satrec :=
  MkSatrec (sr_name s) (sr_init s) (sr_operationmode s) (sr_error s) (sr_satnum s) (sr_epochyr s) (sr_epochdays s) (sr_ndot s) (sr_nddot s) (sr_bstar s) (sr_inclo s) (sr_nodeo s) (sr_ecco s) (sr_mo s) (sr_no s) (sr_a s) (sr_argpo s) (sr_alta s) (sr_altp s) (sr_jdsatepoch s) (sr_isimp s) (sr_method s) (sr_aycof s) (sr_con41 s) (sr_cc1 s) (sr_cc4 s) (sr_cc5 s) (sr_d2 s) (sr_d3 s) (sr_d4 s) (sr_delmo s) (sr_eta s) (sr_argpdot s) (sr_omgcof s) (sr_sinmao s) (sr_t s) (sr_t2cof s) (sr_t3cof s) (sr_t4cof s) (sr_t5cof s) (sr_x1mth2 s) (sr_x7thm1 s) (sr_mdot s) (sr_nodedot s) (sr_xlcof s) (sr_xmcof s) (sr_nodecf s) (sr_irez s) (sr_d2201 s) (sr_d2211 s) (sr_d3210 s) (sr_d3222 s) (sr_d4410 s) (sr_d4422 s) (sr_d5220 s) (sr_d5232 s) (sr_d5421 s) (sr_d5433 s) (sr_dedt s) (sr_del1 s) (sr_del2 s) (sr_del3 s) (sr_didt s) (sr_dmdt s) (sr_dnodt s) (sr_domdt s) (sr_e3 s) (sr_ee2 s) (sr_peo s) (sr_pgho s) (sr_pho s) (sr_pinco s) (sr_plo s) (sr_se2 s) (sr_se3 s) (sr_sgh2 s) (sr_sgh3 s) (sr_sgh4 s) (sr_sh2 s) (sr_sh3 s) (sr_si2 s) (sr_si3 s) (sr_sl2 s) (sr_sl3 s) (sr_sl4 s) (sr_gsto s) (sr_xfact s) (sr_xgh2 s) (sr_xgh3 s) (sr_xgh4 s) (sr_xh2 s) (sr_xh3 s) (sr_xi2 s) (sr_xi3 s) (sr_xl2 s) (sr_xl3 s) v (sr_xlamo s) (sr_zmol s) (sr_zmos s) (sr_atime s) (sr_xli s) (sr_xni s).
Definition set_xlamo v (s : Satrec) : Satrec :=
  MkSatrec (sr_name s) (sr_init s) (sr_operationmode s) (sr_error s) (sr_satnum s) (sr_epochyr s) (sr_epochdays s) (sr_ndot s) (sr_nddot s) (sr_bstar s) (sr_inclo s) (sr_nodeo s) (sr_ecco s) (sr_mo s) (sr_no s) (sr_a s) (sr_argpo s) (sr_alta s) (sr_altp s) (sr_jdsatepoch s) (sr_isimp s) (sr_method s) (sr_aycof s) (sr_con41 s) (sr_cc1 s) (sr_cc4 s) (sr_cc5 s) (sr_d2 s) (sr_d3 s) (sr_d4 s) (sr_delmo s) (sr_eta s) (sr_argpdot s) (sr_omgcof s) (sr_sinmao s) (sr_t s) (sr_t2cof s) (sr_t3cof s) (sr_t4cof s) (sr_t5cof s) (sr_x1mth2 s) (sr_x7thm1 s) (sr_mdot s) (sr_nodedot s) (sr_xlcof s) (sr_xmcof s) (sr_nodecf s) (sr_irez s) (sr_d2201 s) (sr_d2211 s) (sr_d3210 s) (sr_d3222 s) (sr_d4410 s) (sr_d4422 s) (sr_d5220 s) (sr_d5232 s) (sr_d5421 s) (sr_d5433 s) (sr_dedt s) (sr_del1 s) (sr_del2 s) (sr_del3 s) (sr_didt s) (sr_dmdt s) (sr_dnodt s) (sr_domdt s) (sr_e3 s) (sr_ee2 s) (sr_peo s) (sr_pgho s) (sr_pho s) (sr_pinco s) (sr_plo s) (sr_se2 s) (sr_se3 s) (sr_sgh2 s) (sr_sgh3 s) (sr_sgh4 s) (sr_sh2 s) (sr_sh3 s) (sr_si2 s) (sr_si3 s) (sr_sl2 s) (sr_sl3 s) (sr_sl4 s) (sr_gsto s) (sr_xfact s) (sr_xgh2 s) (sr_xgh3 s) (sr_xgh4 s) (sr_xh2 s) (sr_xh3 s) (sr_xi2 s) (sr_xi3 s) (sr_xl2 s) (sr_xl3 s) (sr_xl4 s) v (sr_zmol s) (sr_zmos s) (sr_atime s) (sr_xli s) (sr_xni s).
Definition set_zmol v (s : Satrec) : Satrec :=
  MkSatrec (sr_name s) (sr_init s) (sr_operationmode s) (sr_error s) (sr_satnum s) (sr_epochyr s) (sr_epochdays s) (sr_ndot s) (sr_nddot s) (sr_bstar s) (sr_inclo s) (sr_nodeo s) (sr_ecco s) (sr_mo s) (sr_no s) (sr_a s) (sr_argpo s) (sr_alta s) (sr_altp s) (sr_jdsatepoch s) (sr_isimp s) (sr_method s) (sr_aycof s) (sr_con41 s) (sr_cc1 s) (sr_cc4 s) (sr_cc5 s) (sr_d2 s) (sr_d3 s) (sr_d4 s) (sr_delmo s) (sr_eta s) (sr_argpdot s) (sr_omgcof s) (sr_sinmao s) (sr_t s) (sr_t2cof s) (sr_t3cof s) (sr_t4cof s) (sr_t5cof s) (sr_x1mth2 s) (sr_x7thm1 s) (sr_mdot s) (sr_nodedot s) (sr_xlcof s) (sr_xmcof s) (sr_nodecf s) (sr_irez s) (sr_d2201 s) (sr_d2211 s) (sr_d3210 s) (sr_d3222 s) (sr_d4410 s) (sr_d4422 s) (sr_d5220 s) (sr_d5232 s) (sr_d5421 s) (sr_d5433 s) (sr_dedt s) (sr_del1 s) (sr_del2 s) (sr_del3 s) (sr_didt s) (sr_dmdt s) (sr_dnodt s) (sr_domdt s) (sr_e3 s) (sr_ee2 s) (sr_peo s) (sr_pgho s) (sr_pho s) (sr_pinco s) (sr_plo s) (sr_se2 s) (sr_se3 s) (sr_sgh2 s) (sr_sgh3 s) (sr_sgh4 s) (sr_sh2 s) (sr_sh3 s) (sr_si2 s) (sr_si3 s) (sr_sl2 s) (sr_sl3 s) (sr_sl4 s) (sr_gsto s) (sr_xfact s) (sr_xgh2 s) (sr_xgh3 s) (sr_xgh4 s) (sr_xh2 s) (sr_xh3 s) (sr_xi2 s) (sr_xi3 s) (sr_xl2 s) (sr_xl3 s) (sr_xl4 s) (sr_xlamo s) v (sr_zmos s) (sr_atime s) (sr_xli s) (sr_xni s).
Definition set_zmos v (s : Satrec) : Satrec :=
  MkSatrec (sr_name s) (sr_init s) (sr_operationmode s) (sr_error s) (sr_satnum s) (sr_epochyr s) (sr_epochdays s) (sr_ndot s) (sr_nddot s) (sr_bstar s) (sr_inclo s) (sr_nodeo s) (sr_ecco s) (sr_mo s) (sr_no s) (sr_a s) (sr_argpo s) (sr_alta s) (sr_altp s) (sr_jdsatepoch s) (sr_isimp s) (sr_method s) (sr_aycof s) (sr_con41 s) (sr_cc1 s) (sr_cc4 s) (sr_cc5 s) (sr_d2 s) (sr_d3 s) (sr_d4 s) (sr_delmo s) (sr_eta s) (sr_argpdot s) (sr_omgcof s) (sr_sinmao s) (sr_t s) (sr_t2cof s) (sr_t3cof s) (sr_t4cof s) (sr_t5cof s) (sr_x1mth2 s) (sr_x7thm1 s) (sr_mdot s) (sr_nodedot s) (sr_xlcof s) (sr_xmcof s) (sr_nodecf s) (sr_irez s) (sr_d2201 s) (sr_d2211 s) (sr_d3210 s) (sr_d3222 s) (sr_d4410 s) (sr_d4422 s) (sr_d5220 s) (sr_d5232 s) (sr_d5421 s) (sr_d5433 s) (sr_dedt s) (sr_del1 s) (sr_del2 s) (sr_del3 s) (sr_didt s) (sr_dmdt s) (sr_dnodt s) (sr_domdt s) (sr_e3 s) (sr_ee2 s) (sr_peo s) (sr_pgho s) (sr_pho s) (sr_pinco s) (sr_plo s) (sr_se2 s) (sr_se3 s) (sr_sgh2 s) (sr_sgh3 s) (sr_sgh4 s) (sr_sh2 s) (sr_sh3 s) (sr_si2 s) (sr_si3 s) (sr_sl2 s) (sr_sl3 s) (sr_sl4 s) (sr_gsto s) (sr_xfact s) (sr_xgh2 s) (sr_xgh3 s) (sr_xgh4 s) (sr_xh2 s) (sr_xh3 s) (sr_xi2 s) (sr_xi3 s) (sr_xl2 s) (sr_xl3 s) (sr_xl4 s) (sr_xlamo s) (sr_zmol s) v (sr_atime s) (sr_xli s) (sr_xni s).
Definition set_atime v (s : Satrec) : Satrec :=
  MkSatrec (sr_name s) (sr_init s) (sr_operationmode s) (sr_error s) (sr_satnum s) (sr_epochyr s) (sr_epochdays s) (sr_ndot s) (sr_nddot s) (sr_bstar s) (sr_inclo s) (sr_nodeo s) (sr_ecco s) (sr_mo s) (sr_no s) (sr_a s) (sr_argpo s) (sr_alta s) (sr_altp s) (sr_jdsatepoch s) (sr_isimp s) (sr_method s) (sr_aycof s) (sr_con41 s) (sr_cc1 s) (sr_cc4 s) (sr_cc5 s) (sr_d2 s) (sr_d3 s) (sr_d4 s) (sr_delmo s) (sr_eta s) (sr_argpdot s) (sr_omgcof s) (sr_sinmao s) (sr_t s) (sr_t2cof s) (sr_t3cof s) (sr_t4cof s) (sr_t5cof s) (sr_x1mth2 s) (sr_x7thm1 s) (sr_mdot s) (sr_nodedot s) (sr_xlcof s) (sr_xmcof s) (sr_nodecf s) (sr_irez s) (sr_d2201 s) (sr_d2211 s) (sr_d3210 s) (sr_d3222 s) (sr_d4410 s) (sr_d4422 s) (sr_d5220 s) (sr_d5232 s) (sr_d5421 s) (sr_d5433 s) (sr_dedt s) (sr_del1 s) (sr_del2 s) (sr_del3 s) (sr_didt s) (sr_dmdt s) (sr_dnodt s) (sr_domdt s) (sr_e3 s) (sr_ee2 s) (sr_peo s) (sr_pgho s) (sr_pho s) (sr_pinco s) (sr_plo s) (sr_se2 s) (sr_se3 s) (sr_sgh2 s) (sr_sgh3 s) (sr_sgh4 s) (sr_sh2 s) (sr_sh3 s) (sr_si2 s) (sr_si3 s) (sr_sl2 s) (sr_sl3 s) (sr_sl4 s) (sr_gsto s) (sr_xfact s) (sr_xgh2 s) (sr_xgh3 s) (sr_xgh4 s) (sr_xh2 s) (sr_xh3 s) (sr_xi2 s) (sr_xi3 s) (sr_xl2 s) (sr_xl3 s) (sr_xl4 s) (sr_xlamo s) (sr_zmol s) (sr_zmos s) v (sr_xli s) (sr_xni s).
Definition set_xli v (s : Satrec) : Satrec :=
  MkSatrec (sr_name s) (sr_init s) (sr_operationmode s) (sr_error s) (sr_satnum s) (sr_epochyr s) (sr_epochdays s) (sr_ndot s) (sr_nddot s) (sr_bstar s) (sr_inclo s) (sr_nodeo s) (sr_ecco s) (sr_mo s) (sr_no s) (sr_a s) (sr_argpo s) (sr_alta s) (sr_altp s) (sr_jdsatepoch s) (sr_isimp s) (sr_method s) (sr_aycof s) (sr_con41 s) (sr_cc1 s) (sr_cc4 s) (sr_cc5 s) (sr_d2 s) (sr_d3 s) (sr_d4 s) (sr_delmo s) (sr_eta s) (sr_argpdot s) (sr_omgcof s) (sr_sinmao s) (sr_t s) (sr_t2cof s) (sr_t3cof s) (sr_t4cof s) (sr_t5cof s) (sr_x1mth2 s) (sr_x7thm1 s) (sr_mdot s) (sr_nodedot s) (sr_xlcof s) (sr_xmcof s) (sr_nodecf s) (sr_irez s) (sr_d2201 s) (sr_d2211 s) (sr_d3210 s) (sr_d3222 s) (sr_d4410 s) (sr_d4422 s) (sr_d5220 s) (sr_d5232 s) (sr_d5421 s) (sr_d5433 s) (sr_dedt s) (sr_del1 s) (sr_del2 s) (sr_del3 s) (sr_didt s) (sr_dmdt s) (sr_dnodt s) (sr_domdt s) (sr_e3 s) (sr_ee2 s) (sr_peo s) (sr_pgho s) (sr_pho s) (sr_pinco s) (sr_plo s) (sr_se2 s) (sr_se3 s) (sr_sgh2 s) (sr_sgh3 s) (sr_sgh4 s) (sr_sh2 s) (sr_sh3 s) (sr_si2 s) (sr_si3 s) (sr_sl2 s) (sr_sl3 s) (sr_sl4 s) (sr_gsto s) (sr_xfact s) (sr_xgh2 s) (sr_xgh3 s) (sr_xgh4 s) (sr_xh2 s) (sr_xh3 s) (sr_xi2 s) (sr_xi3 s) (sr_xl2 s) (sr_xl3 s) (sr_xl4 s) (sr_xlamo s) (sr_zmol s) (sr_zmos s) (sr_atime s) v (sr_xni s).
Definition set_xni v (s : Satrec) : Satrec :=
  MkSatrec (sr_name s) (sr_init s) (sr_operationmode s) (sr_error s) (sr_satnum s) (sr_epochyr s) (sr_epochdays s) (sr_ndot s) (sr_nddot s) (sr_bstar s) (sr_inclo s) (sr_nodeo s) (sr_ecco s) (sr_mo s) (sr_no s) (sr_a s) (sr_argpo s) (sr_alta s) (sr_altp s) (sr_jdsatepoch s) (sr_isimp s) (sr_method s) (sr_aycof s) (sr_con41 s) (sr_cc1 s) (sr_cc4 s) (sr_cc5 s) (sr_d2 s) (sr_d3 s) (sr_d4 s) (sr_delmo s) (sr_eta s) (sr_argpdot s) (sr_omgcof s) (sr_sinmao s) (sr_t s) (sr_t2cof s) (sr_t3cof s) (sr_t4cof s) (sr_t5cof s) (sr_x1mth2 s) (sr_x7thm1 s) (sr_mdot s) (sr_nodedot s) (sr_xlcof s) (sr_xmcof s) (sr_nodecf s) (sr_irez s) (sr_d2201 s) (sr_d2211 s) (sr_d3210 s) (sr_d3222 s) (sr_d4410 s) (sr_d4422 s) (sr_d5220 s) (sr_d5232 s) (sr_d5421 s) (sr_d5433 s) (sr_dedt s) (sr_del1 s) (sr_del2 s) (sr_del3 s) (sr_didt s) (sr_dmdt s) (sr_dnodt s) (sr_domdt s) (sr_e3 s) (sr_ee2 s) (sr_peo s) (sr_pgho s) (sr_pho s) (sr_pinco s) (sr_plo s) (sr_se2 s) (sr_se3 s) (sr_sgh2 s) (sr_sgh3 s) (sr_sgh4 s) (sr_sh2 s) (sr_sh3 s) (sr_si2 s) (sr_si3 s) (sr_sl2 s) (sr_sl3 s) (sr_sl4 s) (sr_gsto s) (sr_xfact s) (sr_xgh2 s) (sr_xgh3 s) (sr_xgh4 s) (sr_xh2 s) (sr_xh3 s) (sr_xi2 s) (sr_xi3 s) (sr_xl2 s) (sr_xl3 s) (sr_xl4 s) (sr_xlamo s) (sr_zmol s) (sr_zmos s) (sr_atime s) (sr_xli s) v.

(** Satrec::zero, io.rs:120-230 *)
Definition satrec_zero : Satrec :=
  MkSatrec None InitY OpsI 0%Z [] 0%Z (L 0 0) (L 0 0) (L 0 0) (L 0 0) (L 0 0) (L 0 0) (L 0 0) (L 0 0) (L 0 0) (L 0 0) (L 0 0) (L 0 0) (L 0 0) (L 0 0) 0%Z MethodN (L 0 0) (L 0 0) (L 0 0) (L 0 0) (L 0 0) (L 0 0) (L 0 0) (L 0 0) (L 0 0) (L 0 0) (L 0 0) (L 0 0) (L 0 0) (L 0 0) (L 0 0) (L 0 0) (L 0 0) (L 0 0) (L 0 0) (L 0 0) (L 0 0) (L 0 0) (L 0 0) (L 0 0) (L 0 0) (L 0 0) (L 0 0) (L 0 0) (L 0 0) (L 0 0) (L 0 0) (L 0 0) (L 0 0) (L 0 0) (L 0 0) (L 0 0) (L 0 0) (L 0 0) (L 0 0) (L 0 0) (L 0 0) (L 0 0) (L 0 0) (L 0 0) (L 0 0) (L 0 0) (L 0 0) (L 0 0) (L 0 0) (L 0 0) (L 0 0) (L 0 0) (L 0 0) (L 0 0) (L 0 0) (L 0 0) (L 0 0) (L 0 0) (L 0 0) (L 0 0) (L 0 0) (L 0 0) (L 0 0) (L 0 0) (L 0 0) (L 0 0) (L 0 0) (L 0 0) (L 0 0) (L 0 0) (L 0 0) (L 0 0) (L 0 0) (L 0 0) (L 0 0) (L 0 0) (L 0 0) (L 0 0) (L 0 0) (L 0 0) (L 0 0)
.
End Satrec.
Arguments Satrec F : clear implicits.
