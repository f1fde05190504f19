(** * The repository's unit-test vectors, evaluated on the binary64 model.

    Generated by tools/golden.py.  These are tests of the transcription (model against the values the
    Rust tests assert), not proofs of properties. *)
From Coq Require Import ZArith List Bool String.
From Verif.Model Require Import Float Str Satrec Constants Vec3 Gstime Initl Dscom Dpper Dsinit Dspace Sgp4 Sgp4init Ext Io Transforms.
From Verif.Inst Require Import B64.
From Verif.Golden Require Import Libm.
From Flocq Require Import IEEE754.BinarySingleNaN.
Import ListNotations.
Local Open Scope bool_scope.

(** initl.rs, test_initl *)
Example golden_test_initl : (let r := initl ({| il_satn := (of_string "88888"); il_ecco := (lit (86731) (-7)); il_epoch := (lit (11232987084649969) (-12)); il_inclo := (lit (12713589136764896) (-16)); il_no := (lit (7006731262087737) (-17)); il_method := MethodN; il_opsmode := OpsI |}) in
  (close (ir_no r) (lit (7010615621239219) (-17))) &&
  (match ir_method r, MethodN with MethodN, _ => true | _, _ => false end) &&
  (close (ir_ainv r) (lit (9614303648645832) (-16))) &&
  (close (ir_ao r) (lit (10401169305078577) (-16))) &&
  (close (ir_con41 r) (lit (-7389556198424165) (-16))) &&
  (close (ir_con42 r) (lit (5649260330706942) (-16))) &&
  (close (ir_cosio r) (lit (2949827001467394) (-16))) &&
  (close (ir_cosio2 r) (lit (8701479338586116) (-17))) &&
  (close (ir_eccsq r) (lit (7522266360999999) (-20))) &&
  (close (ir_omeosq r) (lit (99992477733639) (-14))) &&
  (close (ir_posq r) (lit (10816804769920354) (-16))) &&
  (close (ir_rp r) (lit (103109589235787) (-14))) &&
  (close (ir_rteosq r) (lit (9999623879608622) (-16))) &&
  (close (ir_sinio r) (lit (9555025937244435) (-16))) &&
  (close (ir_gsto r) (lit (1082901416688955) (-16)))) = true.
Proof. vm_compute. reflexivity. Qed.

(** initl.rs, test_initl_ds *)
Example golden_test_initl_ds : (let r := initl ({| il_satn := (of_string "11801"); il_ecco := (lit (7318036) (-7)); il_epoch := (lit (1118729629787989) (-11)); il_inclo := (lit (8166674822761788) (-16)); il_no := (lit (9971844782555844) (-18)); il_method := MethodN; il_opsmode := OpsI |}) in
  (close (ir_no r) (lit (9971131594572634) (-18))) &&
  (match ir_method r, MethodN with MethodN, _ => true | _, _ => false end) &&
  (close (ir_ainv r) (lit (2619650549686258) (-16))) &&
  (close (ir_ao r) (lit (38173030373068833) (-16))) &&
  (close (ir_con41 r) (lit (40625317982989756) (-17))) &&
  (close (ir_con42 r) (lit (-13437552997164959) (-16))) &&
  (close (ir_cosio r) (lit (6846539709541596) (-16))) &&
  (close (ir_cosio2 r) (lit (4687510599432992) (-16))) &&
  (close (ir_eccsq r) (lit (53553650897296) (-14))) &&
  (close (ir_omeosq r) (lit (46446349102704) (-14))) &&
  (close (ir_posq r) (lit (3143521535730025) (-15))) &&
  (close (ir_rp r) (lit (10237869323147717) (-16))) &&
  (close (ir_rteosq r) (lit (6815155838475302) (-16))) &&
  (close (ir_sinio r) (lit (7288682597401953) (-16))) &&
  (close (ir_gsto r) (lit (1265125075734467) (-15)))) = true.
Proof. vm_compute. reflexivity. Qed.

(** dscom.rs, test *)
Example golden_dscom : (let r := dscom ({| co_epoch := (lit (1118729629787989) (-11)); co_ep := (lit (7318036) (-7)); co_argpp := (lit (8285461931652521) (-16)); co_tc := (lit (0) (0)); co_inclp := (lit (8166674822761788) (-16)); co_nodep := (lit (4021856443150141) (-15)); co_np := (lit (9971131594572634) (-18)) |}) in
  (close (dr_snodm r) (lit (-7709069259013173) (-16))) &&
  (close (dr_cnodm r) (lit (-6369478091628709) (-16))) &&
  (close (dr_sinim r) (lit (7288682597401953) (-16))) &&
  (close (dr_cosim r) (lit (6846539709541596) (-16))) &&
  (close (dr_sinomm r) (lit (7369494526341018) (-16))) &&
  (close (dr_cosomm r) (lit (6759478561710938) (-16))) &&
  (close (dr_day r) (lit (2944879629787989) (-11))) &&
  (close (dr_e3 r) (lit (-7499513323066247) (-20))) &&
  (close (dr_ee2 r) (lit (3984687913511968) (-19))) &&
  (close (dr_em r) (lit (7318036) (-7))) &&
  (close (dr_emsq r) (lit (53553650897296) (-14))) &&
  (close (dr_gam r) (lit (6309444856011612) (-14))) &&
  (close (dr_peo r) (lit (0) (0))) &&
  (close (dr_pgho r) (lit (0) (0))) &&
  (close (dr_pho r) (lit (0) (0))) &&
  (close (dr_pinco r) (lit (0) (0))) &&
  (close (dr_plo r) (lit (0) (0))) &&
  (close (dr_rtemsq r) (lit (6815155838475302) (-16))) &&
  (close (dr_se2 r) (lit (-23592253136306925) (-19))) &&
  (close (dr_se3 r) (lit (-7047176334622737) (-20))) &&
  (close (dr_sgh2 r) (lit (-18225669552040974) (-20))) &&
  (close (dr_sgh3 r) (lit (-22130294594592042) (-19))) &&
  (close (dr_sgh4 r) (lit (-6154293820943018) (-20))) &&
  (close (dr_sh2 r) (lit (-11394073362677001) (-19))) &&
  (close (dr_sh3 r) (lit (2509518064658255) (-18))) &&
  (close (dr_si2 r) (lit (-5208303756792119) (-20))) &&
  (close (dr_si3 r) (lit (32873534354906702) (-19))) &&
  (close (dr_sl2 r) (lit (27816840121748848) (-19))) &&
  (close (dr_sl3 r) (lit (33383632815548628) (-19))) &&
  (close (dr_sl4 r) (lit (25906770677081676) (-20))) &&
  (close (dr_s1 r) (lit (-3598896387548552) (-19))) &&
  (close (dr_s2 r) (lit (-35294088067045225) (-21))) &&
  (close (dr_s3 r) (lit (4810694207075695) (-20))) &&
  (close (dr_s4 r) (lit (32785630712471235) (-21))) &&
  (close (dr_s5 r) (lit (-32951417210709383) (-17))) &&
  (close (dr_s6 r) (lit (-5535985875139634) (-16))) &&
  (close (dr_s7 r) (lit (10419184821509497) (-17))) &&
  (close (dr_ss1 r) (lit (-22406638674745552) (-19))) &&
  (close (dr_ss2 r) (lit (-21974010738653476) (-20))) &&
  (close (dr_ss3 r) (lit (29951261516050645) (-20))) &&
  (close (dr_ss4 r) (lit (2041225147908132) (-19))) &&
  (close (dr_ss5 r) (lit (-2842063666667719) (-16))) &&
  (close (dr_ss6 r) (lit (5264567675404539) (-16))) &&
  (close (dr_ss7 r) (lit (15725643718630555) (-18))) &&
  (close (dr_sz1 r) (lit (7241600464426519) (-15))) &&
  (close (dr_sz2 r) (lit (-4643684224593015) (-15))) &&
  (close (dr_sz3 r) (lit (16686076878687435) (-16))) &&
  (close (dr_sz11 r) (lit (5923151674966536) (-15))) &&
  (close (dr_sz12 r) (lit (11851053999055416) (-17))) &&
  (close (dr_sz13 r) (lit (-15569425931864267) (-16))) &&
  (close (dr_sz21 r) (lit (-55489812856673435) (-16))) &&
  (close (dr_sz22 r) (lit (-2592624873581728) (-15))) &&
  (close (dr_sz23 r) (lit (16121448720509934) (-17))) &&
  (close (dr_sz31 r) (lit (3273877043602411) (-15))) &&
  (close (dr_sz32 r) (lit (-4464394721650089) (-16))) &&
  (close (dr_sz33 r) (lit (-21469592167364815) (-16))) &&
  (close (dr_xgh2 r) (lit (1510256023997251) (-19))) &&
  (close (dr_xgh3 r) (lit (3555337415001366) (-19))) &&
  (close (dr_xgh4 r) (lit (-3239876027006408) (-20))) &&
  (close (dr_xh2 r) (lit (11285895673523819) (-20))) &&
  (close (dr_xh3 r) (lit (-4733943404491607) (-19))) &&
  (close (dr_xi2 r) (lit (-6414087517640146) (-20))) &&
  (close (dr_xi3 r) (lit (-5695169725370441) (-19))) &&
  (close (dr_xl2 r) (lit (-7034864707310533) (-19))) &&
  (close (dr_xl3 r) (lit (-5240671434151523) (-19))) &&
  (close (dr_xl4 r) (lit (13638400715968452) (-20))) &&
  (close (dr_nm r) (lit (9971131594572634) (-18))) &&
  (close (dr_z1 r) (lit (25573881535383824) (-16))) &&
  (close (dr_z2 r) (lit (7311693909959471) (-15))) &&
  (close (dr_z3 r) (lit (8004285429240719) (-15))) &&
  (close (dr_z11 r) (lit (-1949045345610987) (-15))) &&
  (close (dr_z12 r) (lit (9086631598832984) (-16))) &&
  (close (dr_z13 r) (lit (6119118527261723) (-15))) &&
  (close (dr_z21 r) (lit (6841370517901615) (-16))) &&
  (close (dr_z22 r) (lit (15988365604014116) (-16))) &&
  (close (dr_z23 r) (lit (-6022288391897364) (-15))) &&
  (close (dr_z31 r) (lit (-1633514023053113) (-15))) &&
  (close (dr_z32 r) (lit (23032285656514286) (-16))) &&
  (close (dr_z33 r) (lit (37885830019843842) (-16))) &&
  (close (dr_zmol r) (lit (35674683899705713) (-16))) &&
  (close (dr_zmos r) (lit (3896090412268542) (-15)))) = true.
Proof. vm_compute. reflexivity. Qed.

(** dsinit.rs, test_dsinit *)
Example golden_dsinit : (let r := dsinit ({| no_cosim := (lit (6846539709541596) (-16)); no_emsq := (lit (53553650897296) (-14)); no_argpo := (lit (8285461931652521) (-16)); no_s1 := (lit (-3598896387548552) (-19)); no_s2 := (lit (-35294088067045225) (-21)); no_s3 := (lit (4810694207075695) (-20)); no_s4 := (lit (32785630712471235) (-21)); no_s5 := (lit (-32951417210709383) (-17)); no_sinim := (lit (7288682597401953) (-16)); no_ss1 := (lit (-22406638674745552) (-19)); no_ss2 := (lit (-21974010738653476) (-20)); no_ss3 := (lit (29951261516050645) (-20)); no_ss4 := (lit (2041225147908132) (-19)); no_ss5 := (lit (-2842063666667719) (-16)); no_sz1 := (lit (7241600464426519) (-15)); no_sz3 := (lit (16686076878687435) (-16)); no_sz11 := (lit (5923151674966536) (-15)); no_sz13 := (lit (-15569425931864267) (-16)); no_sz21 := (lit (-55489812856673435) (-16)); no_sz23 := (lit (16121448720509934) (-17)); no_sz31 := (lit (3273877043602411) (-15)); no_sz33 := (lit (-21469592167364815) (-16)); no_t := (lit (0) (0)); no_tc := (lit (0) (0)); no_gsto := (lit (1265125075734467) (-15)); no_mo := (lit (1817184457298936) (-16)); no_mdot := (lit (9971844927637492) (-18)); no_no := (lit (9971131594572634) (-18)); no_nodeo := (lit (4021856443150141) (-15)); no_nodedot := (lit (-35284989537160483) (-22)); no_xpidot := (lit (-6772658213883069) (-23)); no_z1 := (lit (25573881535383824) (-16)); no_z3 := (lit (8004285429240719) (-15)); no_z11 := (lit (-1949045345610987) (-15)); no_z13 := (lit (6119118527261723) (-15)); no_z21 := (lit (6841370517901615) (-16)); no_z23 := (lit (-6022288391897364) (-15)); no_z31 := (lit (-1633514023053113) (-15)); no_z33 := (lit (37885830019843842) (-16)); no_ecco := (lit (7318036) (-7)); no_eccsq := (lit (53553650897296) (-14)); no_em := (lit (7318036) (-7)); no_argpm := (lit (0) (0)); no_inclm := (lit (8166674822761788) (-16)); no_mm := (lit (0) (0)); no_nm := (lit (9971131594572634) (-18)); no_nodem := (lit (0) (0)); no_irez := (lit (0) (0)); no_atime := (lit (0) (0)); no_d2201 := (lit (0) (0)); no_d2211 := (lit (0) (0)); no_d3210 := (lit (0) (0)); no_d3222 := (lit (0) (0)); no_d4410 := (lit (0) (0)); no_d4422 := (lit (0) (0)); no_d5220 := (lit (0) (0)); no_d5232 := (lit (0) (0)); no_d5421 := (lit (0) (0)); no_d5433 := (lit (0) (0)); no_dedt := (lit (0) (0)); no_didt := (lit (0) (0)); no_dmdt := (lit (0) (0)); no_dnodt := (lit (0) (0)); no_domdt := (lit (0) (0)); no_del1 := (lit (0) (0)); no_del2 := (lit (0) (0)); no_del3 := (lit (0) (0)); no_xfact := (lit (0) (0)); no_xlamo := (lit (0) (0)); no_xli := (lit (0) (0)); no_xni := (lit (0) (0)) |}) in
  (close (nr_em r) (lit (7318036) (-7))) &&
  (close (nr_argpm r) (lit (0) (0))) &&
  (close (nr_inclm r) (lit (8166674822761788) (-16))) &&
  (close (nr_mm r) (lit (0) (0))) &&
  (close (nr_nm r) (lit (9971131594572634) (-18))) &&
  (close (nr_nodem r) (lit (0) (0))) &&
  (close (nr_irez r) (lit (0) (0))) &&
  (close (nr_atime r) (lit (0) (0))) &&
  (close (nr_d2201 r) (lit (0) (0))) &&
  (close (nr_d2211 r) (lit (0) (0))) &&
  (close (nr_d3210 r) (lit (0) (0))) &&
  (close (nr_d3222 r) (lit (0) (0))) &&
  (close (nr_d4410 r) (lit (0) (0))) &&
  (close (nr_d4422 r) (lit (0) (0))) &&
  (close (nr_d5220 r) (lit (0) (0))) &&
  (close (nr_d5232 r) (lit (0) (0))) &&
  (close (nr_d5421 r) (lit (0) (0))) &&
  (close (nr_d5433 r) (lit (0) (0))) &&
  (close (nr_dedt r) (lit (263860646954029) (-22))) &&
  (close (nr_didt r) (lit (-34767374233712414) (-24))) &&
  (close (nr_dmdt r) (lit (8037814266648781) (-23))) &&
  (close (nr_dndt r) (lit (0) (0))) &&
  (close (nr_dnodt r) (lit (-6033631312091549) (-23))) &&
  (close (nr_domdt r) (lit (9465204025716937) (-24))) &&
  (close (nr_del1 r) (lit (0) (0))) &&
  (close (nr_del2 r) (lit (0) (0))) &&
  (close (nr_del3 r) (lit (0) (0))) &&
  (close (nr_xfact r) (lit (0) (0))) &&
  (close (nr_xlamo r) (lit (0) (0))) &&
  (close (nr_xli r) (lit (0) (0))) &&
  (close (nr_xni r) (lit (0) (0)))) = true.
Proof. vm_compute. reflexivity. Qed.

(** dspace.rs, test_dspace *)
Example golden_dspace : (match dspace 10 ({| so_irez := (lit (0) (0)); so_d2201 := (lit (0) (0)); so_d2211 := (lit (0) (0)); so_d3210 := (lit (0) (0)); so_d3222 := (lit (0) (0)); so_d4410 := (lit (0) (0)); so_d4422 := (lit (0) (0)); so_d5220 := (lit (0) (0)); so_d5232 := (lit (0) (0)); so_d5421 := (lit (0) (0)); so_d5433 := (lit (0) (0)); so_dedt := (lit (263860646954029) (-22)); so_del1 := (lit (0) (0)); so_del2 := (lit (0) (0)); so_del3 := (lit (0) (0)); so_didt := (lit (-34767374233712414) (-24)); so_dmdt := (lit (8037814266648781) (-23)); so_dnodt := (lit (-6033631312091549) (-23)); so_domdt := (lit (9465204025716937) (-24)); so_argpo := (lit (8285461931652521) (-16)); so_argpdot := (lit (34607723715772176) (-22)); so_t := (lit (0) (0)); so_tc := (lit (0) (0)); so_gsto := (lit (1265125075734467) (-15)); so_xfact := (lit (0) (0)); so_xlamo := (lit (0) (0)); so_no := (lit (9971131594572634) (-18)); so_atime := (lit (0) (0)); so_em := (lit (7318036) (-7)); so_argpm := (lit (8285461931652521) (-16)); so_inclm := (lit (8166674822761788) (-16)); so_xli := (lit (0) (0)); so_mm := (lit (1817184457298936) (-16)); so_xni := (lit (0) (0)); so_nodem := (lit (4021856443150141) (-15)); so_nm := (lit (9971131594572634) (-18)) |}) with Done r =>
  (close (sx_atime r) (lit (0) (0))) &&
  (close (sx_em r) (lit (7318036) (-7))) &&
  (close (sx_argpm r) (lit (8285461931652521) (-16))) &&
  (close (sx_inclm r) (lit (8166674822761788) (-16))) &&
  (close (sx_xli r) (lit (0) (0))) &&
  (close (sx_mm r) (lit (1817184457298936) (-16))) &&
  (close (sx_xni r) (lit (0) (0))) &&
  (close (sx_nodem r) (lit (4021856443150141) (-15))) &&
  (close (sx_dndt r) (lit (0) (0))) &&
  (close (sx_nm r) (lit (9971131594572634) (-18)))
  | _ => false end) = true.
Proof. vm_compute. reflexivity. Qed.

(** dpper.rs, test_ds *)
Example golden_dpper_test_ds : (let r := dpper ({| sr_name := None; sr_error := (0)%Z; sr_satnum := (of_string "11801"); sr_epochyr := (80)%Z; sr_epochdays := (lit (23029629788) (-8)); sr_ndot := (lit (43363644592306274) (-24)); sr_nddot := (lit (0) (0)); sr_bstar := (lit (14311) (-6)); sr_inclo := (lit (8166674822761788) (-16)); sr_nodeo := (lit (4021856443150141) (-15)); sr_ecco := (lit (7318036) (-7)); sr_argpo := (lit (8285461931652521) (-16)); sr_mo := (lit (1817184457298936) (-16)); sr_no := (lit (9971131594572634) (-18)); sr_a := (lit (3817121025708788) (-15)); sr_alta := (lit (5610503933958173) (-15)); sr_altp := (lit (23738117459404462) (-18)); sr_jdsatepoch := (lit (244446879629788) (-8)); sr_isimp := (1)%Z; sr_method := MethodD; sr_aycof := (lit (8523715456365274) (-19)); sr_con41 := (lit (40625317982989756) (-17)); sr_cc1 := (lit (2456092742119515) (-21)); sr_cc4 := (lit (1111232746219671) (-19)); sr_cc5 := (lit (1667847920486393) (-17)); sr_d2 := (lit (0) (0)); sr_d3 := (lit (0) (0)); sr_d4 := (lit (0) (0)); sr_delmo := (lit (7753547406313254) (-15)); sr_eta := (lit (9956413449218073) (-16)); sr_argpdot := (lit (34607723715772176) (-22)); sr_omgcof := (lit (7166665721514533) (-33)); sr_sinmao := (lit (1807199902443773) (-16)); sr_t := (lit (0) (0)); sr_t2cof := (lit (36841391131792723) (-22)); sr_t3cof := (lit (0) (0)); sr_t4cof := (lit (0) (0)); sr_t5cof := (lit (0) (0)); sr_x1mth2 := (lit (5312489400567009) (-16)); sr_x7thm1 := (lit (2281257419603094) (-15)); sr_mdot := (lit (9971844927637492) (-18)); sr_nodedot := (lit (-35284989537160483) (-22)); sr_xlcof := (lit (16249664763650373) (-19)); sr_xmcof := (lit (-5859015475500135) (-28)); sr_nodecf := (lit (-14081043481329519) (-27)); sr_irez := (lit (0) (0)); sr_d2201 := (lit (0) (0)); sr_d2211 := (lit (0) (0)); sr_d3210 := (lit (0) (0)); sr_d3222 := (lit (0) (0)); sr_d4410 := (lit (0) (0)); sr_d4422 := (lit (0) (0)); sr_d5220 := (lit (0) (0)); sr_d5232 := (lit (0) (0)); sr_d5421 := (lit (0) (0)); sr_d5433 := (lit (0) (0)); sr_dedt := (lit (0) (0)); sr_del1 := (lit (0) (0)); sr_del2 := (lit (0) (0)); sr_del3 := (lit (0) (0)); sr_didt := (lit (0) (0)); sr_dmdt := (lit (0) (0)); sr_dnodt := (lit (0) (0)); sr_domdt := (lit (0) (0)); sr_e3 := (lit (-7499513323066247) (-20)); sr_ee2 := (lit (3984687913511968) (-19)); sr_peo := (lit (0) (0)); sr_pgho := (lit (0) (0)); sr_pho := (lit (0) (0)); sr_pinco := (lit (0) (0)); sr_plo := (lit (0) (0)); sr_se2 := (lit (-23592253136306925) (-19)); sr_se3 := (lit (-7047176334622737) (-20)); sr_sgh2 := (lit (-18225669552040974) (-20)); sr_sgh3 := (lit (-22130294594592042) (-19)); sr_sgh4 := (lit (-6154293820943018) (-20)); sr_sh2 := (lit (-11394073362677001) (-19)); sr_sh3 := (lit (2509518064658255) (-18)); sr_si2 := (lit (-5208303756792119) (-20)); sr_si3 := (lit (32873534354906702) (-19)); sr_sl2 := (lit (27816840121748848) (-19)); sr_sl3 := (lit (33383632815548628) (-19)); sr_sl4 := (lit (25906770677081676) (-20)); sr_gsto := (lit (1265125075734467) (-15)); sr_xfact := (lit (0) (0)); sr_xgh2 := (lit (1510256023997251) (-19)); sr_xgh3 := (lit (3555337415001366) (-19)); sr_xgh4 := (lit (-3239876027006408) (-20)); sr_xh2 := (lit (11285895673523819) (-20)); sr_xh3 := (lit (-4733943404491607) (-19)); sr_xi2 := (lit (-6414087517640146) (-20)); sr_xi3 := (lit (-5695169725370441) (-19)); sr_xl2 := (lit (-7034864707310533) (-19)); sr_xl3 := (lit (-5240671434151523) (-19)); sr_xl4 := (lit (13638400715968452) (-20)); sr_xlamo := (lit (0) (0)); sr_zmol := (lit (35674683899705713) (-16)); sr_zmos := (lit (3896090412268542) (-15)); sr_atime := (lit (0) (0)); sr_xli := (lit (0) (0)); sr_xni := (lit (0) (0)); sr_operationmode := OpsI; sr_init := InitY |}) ({| po_inclo := (lit (8166674822761788) (-16)); po_init := InitY; po_ep := (lit (7318036) (-7)); po_inclp := (lit (8166674822761788) (-16)); po_nodep := (lit (4021856443150141) (-15)); po_argpp := (lit (8285461931652521) (-16)); po_mp := (lit (1817184457298936) (-16)); po_opsmode := OpsI |}) in
  (close (pr_ep r) (lit (7318036) (-7))) &&
  (close (pr_inclp r) (lit (8166674822761788) (-16))) &&
  (close (pr_nodep r) (lit (4021856443150141) (-15))) &&
  (close (pr_argpp r) (lit (8285461931652521) (-16))) &&
  (close (pr_mp r) (lit (1817184457298936) (-16)))) = true.
Proof. vm_compute. reflexivity. Qed.

(** dpper.rs, test_no_init *)
Example golden_dpper_test_no_init : (let r := dpper ({| sr_name := None; sr_error := (0)%Z; sr_satnum := (of_string "11801"); sr_epochyr := (80)%Z; sr_epochdays := (lit (23029629788) (-8)); sr_ndot := (lit (43363644592306274) (-24)); sr_nddot := (lit (0) (0)); sr_bstar := (lit (14311) (-6)); sr_inclo := (lit (8166674822761788) (-16)); sr_nodeo := (lit (4021856443150141) (-15)); sr_ecco := (lit (7318036) (-7)); sr_argpo := (lit (8285461931652521) (-16)); sr_mo := (lit (1817184457298936) (-16)); sr_no := (lit (9971131594572634) (-18)); sr_a := (lit (3817121025708788) (-15)); sr_alta := (lit (5610503933958173) (-15)); sr_altp := (lit (23738117459404462) (-18)); sr_jdsatepoch := (lit (244446879629788) (-8)); sr_isimp := (1)%Z; sr_method := MethodD; sr_aycof := (lit (8518061660986528) (-19)); sr_con41 := (lit (40836674874013124) (-17)); sr_cc1 := (lit (2456092742119515) (-21)); sr_cc4 := (lit (1111232746219671) (-19)); sr_cc5 := (lit (1667847920486393) (-17)); sr_d2 := (lit (0) (0)); sr_d3 := (lit (0) (0)); sr_d4 := (lit (0) (0)); sr_delmo := (lit (7753547406313254) (-15)); sr_eta := (lit (9956413449218073) (-16)); sr_argpdot := (lit (34607723715772176) (-22)); sr_omgcof := (lit (7166665721514533) (-33)); sr_sinmao := (lit (1807199902443773) (-16)); sr_t := (lit (0) (0)); sr_t2cof := (lit (36841391131792723) (-22)); sr_t3cof := (lit (0) (0)); sr_t4cof := (lit (0) (0)); sr_t5cof := (lit (0) (0)); sr_x1mth2 := (lit (5305444170866229) (-16)); sr_x7thm1 := (lit (22861890803936395) (-16)); sr_mdot := (lit (9971844927637492) (-18)); sr_nodedot := (lit (-35284989537160483) (-22)); sr_xlcof := (lit (16240429516640184) (-19)); sr_xmcof := (lit (-5859015475500135) (-28)); sr_nodecf := (lit (-14081043481329519) (-27)); sr_irez := (lit (0) (0)); sr_d2201 := (lit (0) (0)); sr_d2211 := (lit (0) (0)); sr_d3210 := (lit (0) (0)); sr_d3222 := (lit (0) (0)); sr_d4410 := (lit (0) (0)); sr_d4422 := (lit (0) (0)); sr_d5220 := (lit (0) (0)); sr_d5232 := (lit (0) (0)); sr_d5421 := (lit (0) (0)); sr_d5433 := (lit (0) (0)); sr_dedt := (lit (263860646954029) (-22)); sr_del1 := (lit (0) (0)); sr_del2 := (lit (0) (0)); sr_del3 := (lit (0) (0)); sr_didt := (lit (-34767374233712414) (-24)); sr_dmdt := (lit (8037814266648781) (-23)); sr_dnodt := (lit (-6033631312091549) (-23)); sr_domdt := (lit (9465204025716937) (-24)); sr_e3 := (lit (-7499513323066247) (-20)); sr_ee2 := (lit (3984687913511968) (-19)); sr_peo := (lit (0) (0)); sr_pgho := (lit (0) (0)); sr_pho := (lit (0) (0)); sr_pinco := (lit (0) (0)); sr_plo := (lit (0) (0)); sr_se2 := (lit (-23592253136306925) (-19)); sr_se3 := (lit (-7047176334622737) (-20)); sr_sgh2 := (lit (-18225669552040974) (-20)); sr_sgh3 := (lit (-22130294594592042) (-19)); sr_sgh4 := (lit (-6154293820943018) (-20)); sr_sh2 := (lit (-11394073362677001) (-19)); sr_sh3 := (lit (2509518064658255) (-18)); sr_si2 := (lit (-5208303756792119) (-20)); sr_si3 := (lit (32873534354906702) (-19)); sr_sl2 := (lit (27816840121748848) (-19)); sr_sl3 := (lit (33383632815548628) (-19)); sr_sl4 := (lit (25906770677081676) (-20)); sr_gsto := (lit (1265125075734467) (-15)); sr_xfact := (lit (0) (0)); sr_xgh2 := (lit (1510256023997251) (-19)); sr_xgh3 := (lit (3555337415001366) (-19)); sr_xgh4 := (lit (-3239876027006408) (-20)); sr_xh2 := (lit (11285895673523819) (-20)); sr_xh3 := (lit (-4733943404491607) (-19)); sr_xi2 := (lit (-6414087517640146) (-20)); sr_xi3 := (lit (-5695169725370441) (-19)); sr_xl2 := (lit (-7034864707310533) (-19)); sr_xl3 := (lit (-5240671434151523) (-19)); sr_xl4 := (lit (13638400715968452) (-20)); sr_xlamo := (lit (0) (0)); sr_zmol := (lit (35674683899705713) (-16)); sr_zmos := (lit (3896090412268542) (-15)); sr_atime := (lit (0) (0)); sr_xli := (lit (0) (0)); sr_xni := (lit (0) (0)); sr_operationmode := OpsI; sr_init := InitN |}) ({| po_inclo := (lit (8166674822761788) (-16)); po_init := InitN; po_ep := (lit (7318036) (-7)); po_inclp := (lit (8166674822761788) (-16)); po_nodep := (lit (4021856443150141) (-15)); po_argpp := (lit (8285461931652521) (-16)); po_mp := (lit (18171844572989393) (-17)); po_opsmode := OpsUndefined |}) in
  (close (pr_ep r) (lit (7318253048776667) (-16))) &&
  (close (pr_inclp r) (lit (8159616103005034) (-16))) &&
  (close (pr_nodep r) (lit (402112614477864) (-14))) &&
  (close (pr_argpp r) (lit (829566024830811) (-15))) &&
  (close (pr_mp r) (lit (1808079384635203) (-16)))) = true.
Proof. vm_compute. reflexivity. Qed.

(** io.rs, test_parse *)
Example golden_parse_satrec : (match parse_satrec (of_string "1 88888U          80275.98708465  .00073094  13844-3  66816-4 0    8") (of_string "2 88888  72.8435 115.9689 0086731  52.6988 110.5714 16.05824518  105") with Done (Ok r) =>
  (Z.eqb (sr_error r) 0) &&
  (str_eqb (sr_satnum r) (of_string "88888")) &&
  (Z.eqb (sr_epochyr r) 80) &&
  (close (sr_epochdays r) (lit (27598708465) (-8))) &&
  (close (sr_ndot r) (lit (22148107004387767) (-25))) &&
  (close (sr_nddot r) (lit (2913090538750181) (-28))) &&
  (close (sr_bstar r) (lit (66816) (-9))) &&
  (close (sr_inclo r) (lit (12713589136764896) (-16))) &&
  (close (sr_nodeo r) (lit (20240391349160523) (-16))) &&
  (close (sr_ecco r) (lit (86731) (-7))) &&
  (close (sr_argpo r) (lit (9197675718499877) (-16))) &&
  (close (sr_mo r) (lit (1929834988539658) (-15))) &&
  (close (sr_no r) (lit (7006731262087737) (-17))) &&
  (close (sr_a r) (lit (10405013051291292) (-16))) &&
  (close (sr_alta r) (lit (4952567699864474) (-17))) &&
  (close (sr_altp r) (lit (3147693325961365) (-17))) &&
  (close (sr_jdsatepoch r) (lit (244451448708465) (-8)))
  | _ => false end) = true.
Proof. vm_compute. reflexivity. Qed.

(** io.rs, test_init_tle *)
Example golden_init_tle : (match twoline2satrec 10 (of_string "1 88888U          80275.98708465  .00073094  13844-3  66816-4 0    8") (of_string "2 88888  72.8435 115.9689 0086731  52.6988 110.5714 16.05824518  105") with Done (Ok r) =>
  (Z.eqb (sr_error r) 0) &&
  (str_eqb (sr_satnum r) (of_string "88888")) &&
  (Z.eqb (sr_epochyr r) 80) &&
  (close (sr_epochdays r) (lit (27598708465) (-8))) &&
  (close (sr_ndot r) (lit (22148107004387767) (-25))) &&
  (close (sr_nddot r) (lit (2913090538750181) (-28))) &&
  (close (sr_bstar r) (lit (66816) (-9))) &&
  (close (sr_inclo r) (lit (12713589136764896) (-16))) &&
  (close (sr_nodeo r) (lit (20240391349160523) (-16))) &&
  (close (sr_ecco r) (lit (86731) (-7))) &&
  (close (sr_argpo r) (lit (9197675718499877) (-16))) &&
  (close (sr_mo r) (lit (1929834988539658) (-15))) &&
  (close (sr_no r) (lit (7010615621239219) (-17))) &&
  (close (sr_a r) (lit (10405013051291292) (-16))) &&
  (close (sr_alta r) (lit (4952567699864474) (-17))) &&
  (close (sr_altp r) (lit (3147693325961365) (-17))) &&
  (close (sr_jdsatepoch r) (lit (244451448708465) (-8))) &&
  (Z.eqb (sr_isimp r) 1) &&
  (match sr_method r, MethodN with MethodN, _ => true | _, _ => false end) &&
  (close (sr_aycof r) (lit (1117407997657797) (-18))) &&
  (close (sr_con41 r) (lit (-7389556198424165) (-16))) &&
  (close (sr_cc1 r) (lit (23340379369349495) (-24))) &&
  (close (sr_cc4 r) (lit (37724513079719584) (-20))) &&
  (close (sr_cc5 r) (lit (1233625966048993) (-17))) &&
  (close (sr_d2 r) (lit (0) (0))) &&
  (close (sr_d3 r) (lit (0) (0))) &&
  (close (sr_d4 r) (lit (0) (0))) &&
  (close (sr_delmo r) (lit (6963031736886937) (-16))) &&
  (close (sr_eta r) (lit (32347784078169217) (-17))) &&
  (close (sr_argpdot r) (lit (-29718644394179532) (-21))) &&
  (close (sr_sinmao r) (lit (9362350458581234) (-16))) &&
  (close (sr_t r) (lit (0) (0))) &&
  (close (sr_t2cof r) (lit (35010569054024244) (-24))) &&
  (close (sr_t3cof r) (lit (0) (0))) &&
  (close (sr_t4cof r) (lit (0) (0))) &&
  (close (sr_t5cof r) (lit (0) (0))) &&
  (close (sr_x1mth2 r) (lit (9129852066141388) (-16))) &&
  (close (sr_x7thm1 r) (lit (-3908964462989719) (-16))) &&
  (close (sr_mdot r) (lit (7006729343154267) (-17))) &&
  (close (sr_nodedot r) (lit (-3096533062994484) (-20))) &&
  (close (sr_xlcof r) (lit (19306451483792333) (-19))) &&
  (close (sr_xmcof r) (lit (-493564796620572) (-19))) &&
  (close (sr_nodecf r) (lit (-25361112971222384) (-28))) &&
  (close (sr_irez r) (lit (0) (0))) &&
  (close (sr_d2201 r) (lit (0) (0))) &&
  (close (sr_d2211 r) (lit (0) (0))) &&
  (close (sr_d3210 r) (lit (0) (0))) &&
  (close (sr_d3222 r) (lit (0) (0))) &&
  (close (sr_d4410 r) (lit (0) (0))) &&
  (close (sr_d4422 r) (lit (0) (0))) &&
  (close (sr_d5220 r) (lit (0) (0))) &&
  (close (sr_d5232 r) (lit (0) (0))) &&
  (close (sr_d5421 r) (lit (0) (0))) &&
  (close (sr_d5433 r) (lit (0) (0))) &&
  (close (sr_dedt r) (lit (0) (0))) &&
  (close (sr_del1 r) (lit (0) (0))) &&
  (close (sr_del2 r) (lit (0) (0))) &&
  (close (sr_del3 r) (lit (0) (0))) &&
  (close (sr_didt r) (lit (0) (0))) &&
  (close (sr_dmdt r) (lit (0) (0))) &&
  (close (sr_dnodt r) (lit (0) (0))) &&
  (close (sr_domdt r) (lit (0) (0))) &&
  (close (sr_e3 r) (lit (0) (0))) &&
  (close (sr_ee2 r) (lit (0) (0))) &&
  (close (sr_peo r) (lit (0) (0))) &&
  (close (sr_pgho r) (lit (0) (0))) &&
  (close (sr_pho r) (lit (0) (0))) &&
  (close (sr_pinco r) (lit (0) (0))) &&
  (close (sr_plo r) (lit (0) (0))) &&
  (close (sr_se2 r) (lit (0) (0))) &&
  (close (sr_se3 r) (lit (0) (0))) &&
  (close (sr_sgh2 r) (lit (0) (0))) &&
  (close (sr_sgh3 r) (lit (0) (0))) &&
  (close (sr_sgh4 r) (lit (0) (0))) &&
  (close (sr_sh2 r) (lit (0) (0))) &&
  (close (sr_sh3 r) (lit (0) (0))) &&
  (close (sr_si2 r) (lit (0) (0))) &&
  (close (sr_si3 r) (lit (0) (0))) &&
  (close (sr_sl2 r) (lit (0) (0))) &&
  (close (sr_sl3 r) (lit (0) (0))) &&
  (close (sr_sl4 r) (lit (0) (0))) &&
  (close (sr_gsto r) (lit (1082901416688955) (-16))) &&
  (close (sr_xfact r) (lit (0) (0))) &&
  (close (sr_xgh2 r) (lit (0) (0))) &&
  (close (sr_xgh3 r) (lit (0) (0))) &&
  (close (sr_xgh4 r) (lit (0) (0))) &&
  (close (sr_xh2 r) (lit (0) (0))) &&
  (close (sr_xh3 r) (lit (0) (0))) &&
  (close (sr_xi2 r) (lit (0) (0))) &&
  (close (sr_xi3 r) (lit (0) (0))) &&
  (close (sr_xl2 r) (lit (0) (0))) &&
  (close (sr_xl3 r) (lit (0) (0))) &&
  (close (sr_xl4 r) (lit (0) (0))) &&
  (close (sr_xlamo r) (lit (0) (0))) &&
  (close (sr_zmol r) (lit (0) (0))) &&
  (close (sr_zmos r) (lit (0) (0))) &&
  (close (sr_atime r) (lit (0) (0))) &&
  (close (sr_xli r) (lit (0) (0))) &&
  (close (sr_xni r) (lit (0) (0)))
  | _ => false end) = true.
Proof. vm_compute. reflexivity. Qed.

(** gstime.rs, test_gst *)
Example golden_gst : close (gstime (lit 244446879629788 (-8))) (lit 1265125075734467 (-15)) = true.
Proof. vm_compute. reflexivity. Qed.

(** lib.rs, leo_tle: same tolerances as the test (0.1 km, 0.1 km/s) *)
Definition near (tol a b : b64) : bool := Bltb (Babs (fsub a b)) tol.
Example golden_leo_tle : (match twoline2satrec 10 (of_string "1 88888U          80275.98708465  .00073094  13844-3  66816-4 0    8") (of_string "2 88888  72.8435 115.9689 0086731  52.6988 110.5714 16.05824518  105") with Done (Ok s) =>
  (match sgp4 10 s (lit (0) (0)) with Done (_, Ok r) => let p := g4_position r in let v := g4_velocity r in
   near (lit (1) (-1)) (v_x p) (lit (232897048951) (-8)) && near (lit (1) (-1)) (v_y p) (lit (-599522076416) (-8)) && near (lit (1) (-1)) (v_z p) (lit (171997067261) (-8)) && near (lit (1) (-1)) (v_x v) (lit (29120723) (-7)) && near (lit (1) (-1)) (v_y v) (lit (-98341546) (-8)) && near (lit (1) (-1)) (v_z v) (lit (-709081703) (-8)) | _ => false end) &&
  (match sgp4 10 s (lit (36) (1)) with Done (_, Ok r) => let p := g4_position r in let v := g4_velocity r in
   near (lit (1) (-1)) (v_x p) (lit (245610705566) (-8)) && near (lit (1) (-1)) (v_y p) (lit (-60719385376) (-7)) && near (lit (1) (-1)) (v_z p) (lit (122289727783) (-8)) && near (lit (1) (-1)) (v_x v) (lit (267938992) (-8)) && near (lit (1) (-1)) (v_y v) (lit (-44829041) (-8)) && near (lit (1) (-1)) (v_z v) (lit (-722879231) (-8)) | _ => false end)
  | _ => false end) = true.
Proof. vm_compute. reflexivity. Qed.

(** lib.rs, ds_tle: same tolerances as the test (50 km, 0.1 km/s) *)

Example golden_ds_tle : (match twoline2satrec 10 (of_string "1 11801U          80230.29629788  .01431103  00000-0  14311-1        ") (of_string "2 11801  46.7916 230.4354 7318036  47.4722  10.4117  2.28537848      ") with Done (Ok s) =>
  (match sgp4 10 s (lit (0) (0)) with Done (_, Ok r) => let p := g4_position r in let v := g4_velocity r in
   near (lit (5) (1)) (v_x p) (lit (74733706665) (-7)) && near (lit (5) (1)) (v_y p) (lit (42895261765) (-8)) && near (lit (5) (1)) (v_z p) (lit (582874786377) (-8)) && near (lit (1) (-1)) (v_x v) (lit (510715413) (-8)) && near (lit (1) (-1)) (v_y v) (lit (644468284) (-8)) && near (lit (1) (-1)) (v_z v) (lit (-18613096) (-8)) | _ => false end) &&
  (match sgp4 10 s (lit (36) (1)) with Done (_, Ok r) => let p := g4_position r in let v := g4_velocity r in
   near (lit (5) (1)) (v_x p) (lit (-330522537232) (-8)) && near (lit (5) (1)) (v_y p) (lit (3241086328125) (-8)) && near (lit (5) (1)) (v_z p) (lit (-2469717675781) (-8)) && near (lit (1) (-1)) (v_x v) (lit (-130113538) (-8)) && near (lit (1) (-1)) (v_y v) (lit (-115131518) (-8)) && near (lit (1) (-1)) (v_z v) (lit (-28333528) (-8)) | _ => false end)
  | _ => false end) = true.
Proof. vm_compute. reflexivity. Qed.

(** lib.rs, test_parse_invalid_tle *)
Example golden_invalid : parse_multiple 10 (of_string "Test") = Done ([], [SatrecMultiError 0 InvalidTLEBadLineCount]).
Proof. vm_compute. reflexivity. Qed.

(** constants.rs, test *)
Example golden_constants : forallb (fun p => close (fst p) (snd p))
  [(kPI, lit 3141592653589793 (-15)); (kTWO_PI, lit 6283185307179586 (-15)); (kDEG_2_RAD, lit 17453292519943295 (-18));
   (kRAD_TO_DEG, lit 5729577951308232 (-14)); (kMINUTES_PER_DAY, lit 1440 0); (kMU, lit 3986005 (-1));
   (kEARTH_RADIUS, lit 6378137 (-3)); (kXKE, lit 7436685316871385 (-17)); (kTUMIN, lit 13446851082044981 (-15));
   (kJ2, lit 108262998905 (-14)); (kJ3, lit (-253215306) (-14)); (kJ4, lit (-161098761) (-14));
   (kJ3OJ2, lit (-23388905587420003) (-19)); (kX2O3, lit 6666666666666666 (-16))] = true.
Proof. vm_compute. reflexivity. Qed.

(** transforms.rs, ecf_to_look_angles and topocentric *)
Definition observer : Geodedic b64 :=
  MkGeodedic (fmul (lit (-1220308) (-4)) kDEG_2_RAD) (fmul (lit 369613422 (-7)) kDEG_2_RAD) (lit 370 (-3)).
Definition satpos : Vec3 b64 := MkVec3 (lit 2328957357263014 (-12)) (lit (-5995219305262678) (-12)) (lit 17200073114076358 (-13)).
Example golden_look : (let r := ecf_to_look_angles observer satpos in
  close (be_azimuth r) (lit 1747132515004105 (-15)) && close (be_elevation r) (lit (-40791001471599636) (-17)) && close (be_range r) (lit 570324291019934 (-11))) = true.
Proof. vm_compute. reflexivity. Qed.
Example golden_topo : (let r := topocentric observer satpos in
  close (tc_top_s r) (lit 9183964944158424 (-13)) && close (tc_top_e r) (lit 5154118963234977 (-12)) && close (tc_top_z r) (lit (-2262429067309148) (-12))) = true.
Proof. vm_compute. reflexivity. Qed.
Definition same (a b : Vec3 b64) : bool := Beqb (v_x a) (v_x b) && Beqb (v_y a) (v_y b) && Beqb (v_z a) (v_z b).
Example golden_ecf : same (eci_to_ecf satpos (lit 0 0)) satpos && same (ecf_to_eci (eci_to_ecf satpos (lit 0 0)) (lit 0 0)) satpos = true.
Proof. vm_compute. reflexivity. Qed.

