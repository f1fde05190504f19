(** * The example records as literals (generated by tools/records.py)

    Each record is written out field by field and checked against the run of the modelled parser and
    initialiser in Golden/SatsRun.v; the examples beside the theorems use these. *)
From Coq Require Import ZArith List Bool String.
From Flocq Require Import IEEE754.BinarySingleNaN.
From Verif.Model Require Import Float Str Satrec Vec3 Sgp4 Sgp4init Io.
From Verif.Inst Require Import B64.
From Verif.Golden Require Export SatsRun.
Import ListNotations.
Local Open Scope Z_scope.

(** a finite nonzero value: sign, mantissa, exponent *)
Notation Fp m e := (@B754_finite prec emax false m e eq_refl).
Notation Fm m e := (@B754_finite prec emax true m e eq_refl).
Notation Zp := (B754_zero false : b64).
Notation Zn := (B754_zero true : b64).

Definition iss : Satrec b64 := MkSatrec None InitN OpsI (0) [50; 53; 53; 52; 52] (19) (Fp 6040284836504279 (-46)) (Fp 6057968636960679 (-87)) Zp (Fp 8347373054282457 (-68)) (Fp 8118803977964621 (-53)) (Fp 7953659827775602 (-53)) (Fp 8603561435978135 (-65)) (Fp 6447595876755635 (-50)) (Fp 4880487580935205 (-56)) (Fp 4792824483111203 (-52)) (Fp 4598977683122027 (-51)) (Fp 4645480678562704 (-56)) (Fp 4609714705139920 (-56)) (Fp 5279737449992203 (-31)) (0) MethodN (Fp 8458309717496690 (-63)) (Fp 5591689480326712 (-55)) (Fp 5089629601909983 (-83)) (Fp 6529344794027783 (-73)) (Fp 5022290242812036 (-63)) (Fp 7347928207103976 (-108)) (Fp 7934560197052491 (-132)) (Fp 4995051570606927 (-155)) (Fp 4558500969125843 (-52)) (Fp 5495416231185022 (-60)) (Fp 6617989842364386 (-67)) (Fm 5080218732816068 (-76)) (Fm 4758294543666404 (-53)) Zp (Fp 7634444402864974 (-83)) (Fp 7527675601049737 (-108)) (Fp 6147530685220139 (-132)) (Fp 6221848486115481 (-156)) (Fp 5538825379800102 (-53)) (Fp 7635708934922620 (-52)) (Fp 4881031228715760 (-56)) (Fm 8896929304579515 (-67)) (Fp 7963163692067659 (-62)) (Fm 5002007589600733 (-60)) (Fm 8793040853359903 (-96)) Zp Zp Zp Zp Zp Zp Zp Zp Zp Zp Zp Zp Zp Zp Zp Zp Zp Zp Zp Zp Zp Zp Zp Zp Zp Zp Zp Zp Zp Zp Zp Zp Zp Zp Zp Zp Zp Zp (Fp 4933109186031424 (-51)) Zp Zp Zp Zp Zp Zp Zp Zp Zp Zp Zp Zp Zp Zp Zp Zp Zp.

Definition leo : Satrec b64 := MkSatrec None InitN OpsI (0) [56; 56; 56; 56; 56] (80) (Fp 4855216139018787 (-44)) (Fp 5355083682638398 (-81)) (Fp 5769970265571630 (-94)) (Fp 4930150608115910 (-66)) (Fp 5725691529887597 (-52)) (Fp 4557730946895617 (-51)) (Fp 4999701750802822 (-59)) (Fp 8691204135273749 (-52)) (Fp 5051680943912116 (-56)) (Fp 4686001290058061 (-52)) (Fp 8284529787702141 (-53)) (Fp 7137402255243776 (-57)) (Fp 4536304156760384 (-57)) (Fp 5249554888313393 (-31)) (1) MethodN (Fp 5153134839677406 (-62)) (Fm 6655920508331282 (-53)) (Fp 7054196814801805 (-78)) (Fp 6958944380868957 (-64)) (Fp 7111369524496401 (-59)) Zp Zp Zp (Fp 6271741427122589 (-53)) (Fp 5827258732828166 (-54)) (Fm 8771395637712206 (-68)) (Fp 6160583316570187 (-75)) (Fp 8432855607315688 (-53)) Zp (Fp 5290647611101354 (-77)) Zp Zp Zp (Fp 8223439672604422 (-53)) (Fm 7041764359570004 (-54)) (Fp 5048880585426476 (-56)) (Fm 4569676234307135 (-67)) (Fp 8903529237325180 (-62)) (Fm 7283730789641757 (-67)) (Fm 6279107437583201 (-91)) Zp Zp Zp Zp Zp Zp Zp Zp Zp Zp Zp Zp Zp Zp Zp Zp Zp Zp Zp Zp Zp Zp Zp Zp Zp Zp Zp Zp Zp Zp Zp Zp Zp Zp Zp Zp Zp Zp (Fp 7803127066686976 (-56)) Zp Zp Zp Zp Zp Zp Zp Zp Zp Zp Zp Zp Zp Zp Zp Zp Zp.

Definition ds : Satrec b64 := MkSatrec None InitN OpsI (0) [49; 49; 56; 48; 49] (80) (Fp 8102830635290412 (-45)) (Fp 6552928697528918 (-77)) Zp (Fp 8249729826214294 (-59)) (Fp 7355886737729200 (-53)) (Fp 4528207794677151 (-50)) (Fp 6591500840536775 (-53)) (Fp 6547096995803956 (-55)) (Fp 5747966020323775 (-59)) (Fp 8595392414505092 (-51)) (Fp 7462880653596545 (-53)) (Fp 6316865856583682 (-50)) (Fp 6842046524457664 (-58)) (Fp 5249456768095940 (-31)) (1) MethodD (Fp 7856525173214789 (-63)) (Fp 7356481349826224 (-54)) (Fp 5799285022102299 (-71)) (Fp 8199450430335884 (-66)) (Fp 4807244334856434 (-58)) Zp Zp Zp (Fp 8729718302467962 (-50)) (Fp 8967939979969022 (-53)) (Fp 8171517726188773 (-71)) (Fp 4651431988998644 (-109)) (Fp 6511123845783818 (-55)) Zp (Fp 8698927533153448 (-71)) Zp Zp Zp (Fp 4778719278189624 (-53)) (Fp 5148040145279646 (-51)) (Fp 5748377228838986 (-59)) (Fm 8331432596934639 (-71)) (Fp 7489576173514500 (-62)) (Fm 5802487878331432 (-93)) (Fm 8715743760228108 (-89)) Zp Zp Zp Zp Zp Zp Zp Zp Zp Zp Zp (Fp 7974698722073646 (-78)) Zp Zp Zp (Fm 5253897048917415 (-77)) (Fp 6073200750136585 (-76)) (Fm 4558882924514230 (-76)) (Fp 5721364767304772 (-79)) (Fm 5533664117919122 (-66)) (Fp 7350451815415900 (-64)) Zp Zp Zp Zp Zp (Fm 5440003196595318 (-61)) (Fm 5199898331483546 (-66)) (Fm 6724085235969995 (-65)) (Fm 5102898508277966 (-61)) (Fm 4541067322773917 (-66)) (Fm 5254588881959347 (-62)) (Fp 5786554685887717 (-61)) (Fm 7686099716774794 (-67)) (Fp 7580120938040782 (-61)) (Fp 6414126633314956 (-61)) (Fp 7697741634988969 (-61)) (Fp 4778955684564088 (-64)) (Fp 5697616819654816 (-52)) Zp (Fp 5571861272091086 (-65)) (Fp 6558439939021431 (-64)) (Fm 4781213112058728 (-67)) (Fp 8327521165283193 (-66)) (Fm 8732584244208197 (-64)) (Fm 4732761236171305 (-66)) (Fm 5252866919012362 (-63)) (Fm 6488517442446452 (-63)) (Fm 4833666236009682 (-63)) (Fp 5031681751643343 (-65)) Zp (Fp 8033224655863744 (-51)) (Fp 8773215664447184 (-51)) Zp Zp Zp.

Definition geo : Satrec b64 := MkSatrec None InitN OpsI (0) [50; 56; 54; 50; 54] (6) (Fp 6208874747738619 (-45)) (Fm 7689681551559994 (-90)) Zp (Fp 7378697629483821 (-66)) (Fp 4893737589456545 (-67)) (Fp 5638625348754507 (-50)) (Fp 4943727411754160 (-67)) (Fp 8748536902121855 (-53)) (Fp 5043973030385300 (-60)) (Fp 7443204489674998 (-50)) (Fp 8672575309193408 (-55)) (Fp 6317553930182778 (-50)) (Fp 6317055235481970 (-50)) (Fp 5269735822407469 (-31)) (1) MethodD (Fp 6357939128215123 (-75)) (Fp 9007198974936552 (-52)) (Fp 7185432857860369 (-110)) (Fp 4873697892779397 (-107)) (Fp 7830217052476331 (-88)) Zp Zp Zp (Fp 4503901187516745 (-52)) (Fp 5837519029915390 (-67)) (Fp 6142391847590486 (-74)) Zp (Fp 7436435127064238 (-53)) Zp (Fp 5389074643395277 (-109)) Zp Zp Zp (Fp 6259119359000576 (-78)) (Fp 6755399277836488 (-50)) (Fp 5044160454910975 (-60)) (Fm 6142277761596362 (-75)) (Fp 6357939119985690 (-74)) Zp (Fm 8573405503431295 (-131)) (Fp 4503599627370496 (-52)) Zp Zp Zp Zp Zp Zp Zp Zp Zp Zp (Fm 5760636214763936 (-92)) (Fm 6335490141337786 (-93)) (Fp 8729661334801942 (-89)) (Fp 4898249905329595 (-91)) (Fm 8907296523901011 (-78)) (Fm 7896024377925860 (-76)) Zp (Fp 5143071998316958 (-77)) (Fp 7351996681479905 (-76)) (Fp 4976719408988702 (-80)) Zp Zp Zp Zp Zp (Fm 4625340206408043 (-73)) (Fm 7522756564095555 (-74)) (Fp 7026940167915753 (-59)) (Fm 7913244782157360 (-59)) (Fm 7593178082959619 (-65)) (Fm 7411222490374445 (-62)) (Fp 7091541333017473 (-65)) (Fp 7887113702864160 (-66)) (Fp 6931685356565663 (-62)) (Fm 7312152199928466 (-59)) (Fp 7222380039016118 (-59)) (Fp 8858707772684454 (-64)) (Fp 6407331690032576 (-52)) (Fm 5044048186324467 (-60)) (Fm 6437744537560256 (-61)) (Fm 8959553773994461 (-67)) (Fm 7994728999143480 (-66)) (Fp 8702218422844530 (-65)) (Fp 7517798967432735 (-65)) (Fp 7301065400171344 (-65)) (Fm 7302876009739554 (-65)) (Fp 6135390881777556 (-61)) (Fp 6123502643818511 (-64)) (Fp 4663591921026910 (-64)) (Fp 5401377517423889 (-50)) (Fp 7809252377457376 (-52)) (Fp 6697921788066032 (-51)) Zp (Fp 5401377517423889 (-50)) (Fp 5043973030385300 (-60)).

Definition mol : Satrec b64 := MkSatrec None InitN OpsI (0) [48; 56; 49; 57; 53] (6) (Fp 6204136133042350 (-45)) (Fp 7427107059555507 (-91)) Zp (Fp 8760727695486140 (-66)) (Fp 5043035447081021 (-52)) (Fp 5483943210174321 (-50)) (Fp 6194382432594499 (-53)) (Fp 6359173800053405 (-54)) (Fp 5043194000224834 (-59)) (Fp 4689688473910919 (-50)) (Fp 5202809071776626 (-50)) (Fp 6788955800028553 (-50)) (Fp 5417941345728592 (-54)) (Fp 5269735533185381 (-31)) (1) MethodD (Fp 4854539975798465 (-62)) (Fm 7759485498197788 (-54)) (Fp 7695154489672892 (-95)) (Fp 5830268341033809 (-82)) (Fp 7806205423546139 (-75)) Zp Zp Zp (Fp 7157517817624898 (-50)) (Fp 8183067694911781 (-53)) (Fm 5618080803355805 (-76)) (Fm 4653940988732432 (-120)) (Fp 6227922088921480 (-54)) Zp (Fp 5771365867254669 (-94)) Zp Zp Zp (Fp 7298047086193626 (-53)) (Fp 5913731850181140 (-54)) (Fp 5042928747884224 (-59)) (Fm 6066337042030095 (-72)) (Fp 8754827114061704 (-62)) (Fm 6111425567134342 (-101)) (Fm 4781810498947900 (-113)) (Fp 4503599627370496 (-51)) (Fm 7411305036732907 (-89)) (Fp 4992938015893630 (-86)) (Fm 4820203455925528 (-90)) (Fm 4558633747792060 (-89)) (Fp 6380258703547059 (-91)) (Fp 5399232716756471 (-90)) (Fm 6260997156368711 (-91)) (Fp 6702436832692829 (-93)) (Fm 5646750817462646 (-91)) (Fm 8217819896869201 (-92)) (Fm 8730099501519878 (-78)) Zp Zp Zp (Fm 5914130549908453 (-79)) (Fp 7004808408062108 (-76)) (Fm 4627407993058461 (-76)) (Fm 8556299862787722 (-79)) (Fm 8131409882395792 (-64)) (Fm 8068074983637825 (-66)) Zp Zp Zp Zp Zp (Fp 5769084365183159 (-61)) (Fp 4645083792244694 (-62)) (Fm 5819558108222618 (-62)) (Fp 5662565391509426 (-61)) (Fm 5513355678837910 (-66)) (Fp 8723499642279175 (-63)) (Fm 4577356267632240 (-60)) (Fm 5121599756954276 (-62)) (Fp 8074496721796881 (-68)) (Fp 4707946505556170 (-60)) (Fm 4886348518062319 (-61)) (Fp 5327977775009499 (-64)) (Fp 5171754811136896 (-53)) (Fm 5046105277862838 (-59)) (Fp 8391797315881854 (-64)) (Fm 7274850152082141 (-68)) (Fm 5804919105890045 (-67)) (Fm 5938321259183485 (-63)) (Fp 5680544376725273 (-64)) (Fp 8429485398127280 (-66)) (Fp 8855098487819188 (-66)) (Fm 7252008864877199 (-63)) (Fm 8410651948160471 (-64)) (Fp 5609737840898592 (-65)) (Fp 5996316656078632 (-51)) (Fp 7670944189641440 (-52)) (Fp 6692704921448176 (-51)) Zp (Fp 5996316656078632 (-51)) (Fp 5043194000224834 (-59)).

(** bit equality *)
Definition same_bits (x y : b64) : bool :=
  match x, y with
  | B754_zero s, B754_zero s' | B754_infinity s, B754_infinity s' => Bool.eqb s s'
  | B754_nan, B754_nan => true
  | B754_finite s m e _, B754_finite s' m' e' _ => Bool.eqb s s' && Pos.eqb m m' && Z.eqb e e'
  | _, _ => false
  end.
Definition init_N (x : DpperInit) := match x with InitY => false | InitN => true end.
Definition same_record (a b : Satrec b64) : bool :=
  same_bits (sr_epochdays a) (sr_epochdays b) &&
  same_bits (sr_ndot a) (sr_ndot b) &&
  same_bits (sr_nddot a) (sr_nddot b) &&
  same_bits (sr_bstar a) (sr_bstar b) &&
  same_bits (sr_inclo a) (sr_inclo b) &&
  same_bits (sr_nodeo a) (sr_nodeo b) &&
  same_bits (sr_ecco a) (sr_ecco b) &&
  same_bits (sr_mo a) (sr_mo b) &&
  same_bits (sr_no a) (sr_no b) &&
  same_bits (sr_a a) (sr_a b) &&
  same_bits (sr_argpo a) (sr_argpo b) &&
  same_bits (sr_alta a) (sr_alta b) &&
  same_bits (sr_altp a) (sr_altp b) &&
  same_bits (sr_jdsatepoch a) (sr_jdsatepoch b) &&
  same_bits (sr_aycof a) (sr_aycof b) &&
  same_bits (sr_con41 a) (sr_con41 b) &&
  same_bits (sr_cc1 a) (sr_cc1 b) &&
  same_bits (sr_cc4 a) (sr_cc4 b) &&
  same_bits (sr_cc5 a) (sr_cc5 b) &&
  same_bits (sr_d2 a) (sr_d2 b) &&
  same_bits (sr_d3 a) (sr_d3 b) &&
  same_bits (sr_d4 a) (sr_d4 b) &&
  same_bits (sr_delmo a) (sr_delmo b) &&
  same_bits (sr_eta a) (sr_eta b) &&
  same_bits (sr_argpdot a) (sr_argpdot b) &&
  same_bits (sr_omgcof a) (sr_omgcof b) &&
  same_bits (sr_sinmao a) (sr_sinmao b) &&
  same_bits (sr_t a) (sr_t b) &&
  same_bits (sr_t2cof a) (sr_t2cof b) &&
  same_bits (sr_t3cof a) (sr_t3cof b) &&
  same_bits (sr_t4cof a) (sr_t4cof b) &&
  same_bits (sr_t5cof a) (sr_t5cof b) &&
  same_bits (sr_x1mth2 a) (sr_x1mth2 b) &&
  same_bits (sr_x7thm1 a) (sr_x7thm1 b) &&
  same_bits (sr_mdot a) (sr_mdot b) &&
  same_bits (sr_nodedot a) (sr_nodedot b) &&
  same_bits (sr_xlcof a) (sr_xlcof b) &&
  same_bits (sr_xmcof a) (sr_xmcof b) &&
  same_bits (sr_nodecf a) (sr_nodecf b) &&
  same_bits (sr_irez a) (sr_irez b) &&
  same_bits (sr_d2201 a) (sr_d2201 b) &&
  same_bits (sr_d2211 a) (sr_d2211 b) &&
  same_bits (sr_d3210 a) (sr_d3210 b) &&
  same_bits (sr_d3222 a) (sr_d3222 b) &&
  same_bits (sr_d4410 a) (sr_d4410 b) &&
  same_bits (sr_d4422 a) (sr_d4422 b) &&
  same_bits (sr_d5220 a) (sr_d5220 b) &&
  same_bits (sr_d5232 a) (sr_d5232 b) &&
  same_bits (sr_d5421 a) (sr_d5421 b) &&
  same_bits (sr_d5433 a) (sr_d5433 b) &&
  same_bits (sr_dedt a) (sr_dedt b) &&
  same_bits (sr_del1 a) (sr_del1 b) &&
  same_bits (sr_del2 a) (sr_del2 b) &&
  same_bits (sr_del3 a) (sr_del3 b) &&
  same_bits (sr_didt a) (sr_didt b) &&
  same_bits (sr_dmdt a) (sr_dmdt b) &&
  same_bits (sr_dnodt a) (sr_dnodt b) &&
  same_bits (sr_domdt a) (sr_domdt b) &&
  same_bits (sr_e3 a) (sr_e3 b) &&
  same_bits (sr_ee2 a) (sr_ee2 b) &&
  same_bits (sr_peo a) (sr_peo b) &&
  same_bits (sr_pgho a) (sr_pgho b) &&
  same_bits (sr_pho a) (sr_pho b) &&
  same_bits (sr_pinco a) (sr_pinco b) &&
  same_bits (sr_plo a) (sr_plo b) &&
  same_bits (sr_se2 a) (sr_se2 b) &&
  same_bits (sr_se3 a) (sr_se3 b) &&
  same_bits (sr_sgh2 a) (sr_sgh2 b) &&
  same_bits (sr_sgh3 a) (sr_sgh3 b) &&
  same_bits (sr_sgh4 a) (sr_sgh4 b) &&
  same_bits (sr_sh2 a) (sr_sh2 b) &&
  same_bits (sr_sh3 a) (sr_sh3 b) &&
  same_bits (sr_si2 a) (sr_si2 b) &&
  same_bits (sr_si3 a) (sr_si3 b) &&
  same_bits (sr_sl2 a) (sr_sl2 b) &&
  same_bits (sr_sl3 a) (sr_sl3 b) &&
  same_bits (sr_sl4 a) (sr_sl4 b) &&
  same_bits (sr_gsto a) (sr_gsto b) &&
  same_bits (sr_xfact a) (sr_xfact b) &&
  same_bits (sr_xgh2 a) (sr_xgh2 b) &&
  same_bits (sr_xgh3 a) (sr_xgh3 b) &&
  same_bits (sr_xgh4 a) (sr_xgh4 b) &&
  same_bits (sr_xh2 a) (sr_xh2 b) &&
  same_bits (sr_xh3 a) (sr_xh3 b) &&
  same_bits (sr_xi2 a) (sr_xi2 b) &&
  same_bits (sr_xi3 a) (sr_xi3 b) &&
  same_bits (sr_xl2 a) (sr_xl2 b) &&
  same_bits (sr_xl3 a) (sr_xl3 b) &&
  same_bits (sr_xl4 a) (sr_xl4 b) &&
  same_bits (sr_xlamo a) (sr_xlamo b) &&
  same_bits (sr_zmol a) (sr_zmol b) &&
  same_bits (sr_zmos a) (sr_zmos b) &&
  same_bits (sr_atime a) (sr_atime b) &&
  same_bits (sr_xli a) (sr_xli b) &&
  same_bits (sr_xni a) (sr_xni b) &&
  Z.eqb (sr_error a) (sr_error b) && Z.eqb (sr_epochyr a) (sr_epochyr b) && Z.eqb (sr_isimp a) (sr_isimp b) &&
  str_eqb (sr_satnum a) (sr_satnum b) && init_eqb (sr_init a) (sr_init b) &&
  opsmode_eqb (sr_operationmode a) (sr_operationmode b) && method_eqb (sr_method a) (sr_method b) &&
  match sr_name a, sr_name b with None, None => true | _, _ => false end.
Example iss_checked : same_record iss iss_run = true.
Proof. vm_compute. reflexivity. Qed.
Example leo_checked : same_record leo leo_run = true.
Proof. vm_compute. reflexivity. Qed.
Example ds_checked : same_record ds ds_run = true.
Proof. vm_compute. reflexivity. Qed.
Example geo_checked : same_record geo geo_run = true.
Proof. vm_compute. reflexivity. Qed.
Example mol_checked : same_record mol mol_run = true.
Proof. vm_compute. reflexivity. Qed.
