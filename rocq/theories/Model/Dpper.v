(** * src/propogation/dpper.rs: long-period lunar-solar periodics *)
From Coq Require Import ZArith Bool.
From Verif.Model Require Import Float Str Satrec Constants.
Local Open Scope Z_scope.
Local Open Scope f_scope.

Section Dpper.
Context {F : Type} {FO : FloatOps F}.

(** dpper.rs:6-12 *)
Record DpperResult := MkDpperResult {
  pr_ep : F;
  pr_inclp : F;
  pr_nodep : F;
  pr_argpp : F;
  pr_mp : F
}.

(** dpper.rs:27-37 *)
Record DpperOptions := MkDpperOptions {
  po_init : DpperInit;
  po_opsmode : DpperOpsMode;
  po_inclo : F;
  po_ep : F;
  po_inclp : F;
  po_nodep : F;
  po_argpp : F;
  po_mp : F
}.

(** dpper.rs:4 *)
Definition dpper_TWO_PI : F := (L 2 0) * kPI. (* propogation/dpper.rs:4 *)
(** dpper.rs:173-176 *)
Definition dpper_ZNS : F := (L 119459 10). (* propogation/dpper.rs:173 *)
Definition dpper_ZES : F := (L 1675 5). (* propogation/dpper.rs:174 *)
Definition dpper_ZNL : F := (L 15835218 11). (* propogation/dpper.rs:175 *)
Definition dpper_ZEL : F := (L 549 4). (* propogation/dpper.rs:176 *)

(** The summed solar and lunar periodic terms (pe, pinc, pl, pgh, ph): dpper.rs:179-218. *)
Record Periodics := MkPeriodics { pt_pe : F; pt_pinc : F; pt_pl : F; pt_pgh : F; pt_ph : F }.

Definition dpper_terms (satrec : Satrec F) (init : DpperInit) : Periodics :=
  let e3 := sr_e3 satrec in
  let ee2 := sr_ee2 satrec in
  let peo := sr_peo satrec in
  let pgho := sr_pgho satrec in
  let pho := sr_pho satrec in
  let pinco := sr_pinco satrec in
  let plo := sr_plo satrec in
  let se2 := sr_se2 satrec in
  let se3 := sr_se3 satrec in
  let sgh2 := sr_sgh2 satrec in
  let sgh3 := sr_sgh3 satrec in
  let sgh4 := sr_sgh4 satrec in
  let sh2 := sr_sh2 satrec in
  let sh3 := sr_sh3 satrec in
  let si2 := sr_si2 satrec in
  let si3 := sr_si3 satrec in
  let sl2 := sr_sl2 satrec in
  let sl3 := sr_sl3 satrec in
  let sl4 := sr_sl4 satrec in
  let t := sr_t satrec in
  let xgh2 := sr_xgh2 satrec in
  let xgh3 := sr_xgh3 satrec in
  let xgh4 := sr_xgh4 satrec in
  let xh2 := sr_xh2 satrec in
  let xh3 := sr_xh3 satrec in
  let xi2 := sr_xi2 satrec in
  let xi3 := sr_xi3 satrec in
  let xl2 := sr_xl2 satrec in
  let xl3 := sr_xl3 satrec in
  let xl4 := sr_xl4 satrec in
  let zmol := sr_zmol satrec in
  let zmos := sr_zmos satrec in
  let zm := zmos + dpper_ZNS * t in
  let zm := if init_eqb init InitY then zmos else zm in (* dpper.rs:182-184 *)
  let zf := zm + (L 2 0) * dpper_ZES * fsin zm in
  let sinzf := fsin zf in
  let f2 := (L 5 1) * sinzf * sinzf - (L 25 2) in
  let f3 := (- (L 5 1)) * sinzf * fcos zf in
  let ses := se2 * f2 + se3 * f3 in
  let sis := si2 * f2 + si3 * f3 in
  let sls := sl2 * f2 + sl3 * f3 + sl4 * sinzf in
  let sghs := sgh2 * f2 + sgh3 * f3 + sgh4 * sinzf in
  let shs := sh2 * f2 + sh3 * f3 in
  let zm := zmol + dpper_ZNL * t in
  let zm := if init_eqb init InitY then zmol else zm in (* dpper.rs:199-201 *)
  let zf := zm + (L 2 0) * dpper_ZEL * fsin zm in
  let sinzf := fsin zf in
  let f2 := (L 5 1) * sinzf * sinzf - (L 25 2) in
  let f3 := (- (L 5 1)) * sinzf * fcos zf in
  let sel := ee2 * f2 + e3 * f3 in
  let sil := xi2 * f2 + xi3 * f3 in
  let sll := xl2 * f2 + xl3 * f3 + xl4 * sinzf in
  let sghl := xgh2 * f2 + xgh3 * f3 + xgh4 * sinzf in
  let shll := xh2 * f2 + xh3 * f3 in
  let pe := ses + sel in
  let pinc := sis + sil in
  let pl := sls + sll in
  let pgh := sghs + sghl in
  let ph := shs + shll in
  MkPeriodics pe pinc pl pgh ph.

(** Periodics applied directly, dpper.rs:241-245 *)
Definition dpper_direct (sinip cosip ep inclp nodep argpp mp pl pgh ph : F) : DpperResult :=
  let ph := ph / sinip in
  let pgh := pgh - cosip * ph in
  let argpp := argpp + pgh in
  let nodep := nodep + ph in
  let mp := mp + pl in
  MkDpperResult ep inclp nodep argpp mp.

(** Periodics applied with the Lyddane modification, dpper.rs:248-282 *)
Definition dpper_lyddane (opsmode : DpperOpsMode)
    (sinip cosip ep inclp nodep argpp mp pinc pl pgh ph : F) : DpperResult :=
  let sinop := fsin nodep in
  let cosop := fcos nodep in
  let alfdp := sinip * sinop in
  let betdp := sinip * cosop in
  let dalf := ph * cosop + pinc * cosip * sinop in
  let dbet := (- ph) * sinop + pinc * cosip * cosop in
  let alfdp := alfdp + dalf in
  let betdp := betdp + dbet in
  let nodep := nodep %% dpper_TWO_PI in
  let nodep := if (nodep <? (L 0 0)) && opsmode_eqb opsmode OpsA then nodep + dpper_TWO_PI else nodep in
  let xls := mp + argpp + cosip * nodep in
  let dls := pl + pgh - pinc * nodep * sinip in
  let xls := xls + dls in
  let xnoh := nodep in
  let nodep := fatan2 alfdp betdp in
  let nodep := if (nodep <? (L 0 0)) && opsmode_eqb opsmode OpsA then nodep + dpper_TWO_PI else nodep in
  let nodep := if kPI <? fabs (xnoh - nodep)
               then (if nodep <? xnoh then nodep + dpper_TWO_PI else nodep - dpper_TWO_PI)
               else nodep in
  let mp := mp + pl in
  let argpp := xls - mp - cosip * nodep in
  MkDpperResult ep inclp nodep argpp mp.

(** dpper, dpper.rs:105-293 *)
Definition dpper (satrec : Satrec F) (options : DpperOptions) : DpperResult :=
  let init := po_init options in
  let opsmode := po_opsmode options in
  let ep := po_ep options in
  let inclp := po_inclp options in
  let nodep := po_nodep options in
  let argpp := po_argpp options in
  let mp := po_mp options in
  let p := dpper_terms satrec init in
  let pe := pt_pe p in let pinc := pt_pinc p in let pl := pt_pl p in
  let pgh := pt_pgh p in let ph := pt_ph p in
  if init_eqb init InitN then
    let pe := pe - sr_peo satrec in
    let pinc := pinc - sr_pinco satrec in
    let pl := pl - sr_plo satrec in
    let pgh := pgh - sr_pgho satrec in
    let ph := ph - sr_pho satrec in
    let inclp := inclp + pinc in
    let ep := ep + pe in
    let sinip := fsin inclp in
    let cosip := fcos inclp in
    if (L 2 1) <=? inclp
    then dpper_direct sinip cosip ep inclp nodep argpp mp pl pgh ph
    else dpper_lyddane opsmode sinip cosip ep inclp nodep argpp mp pinc pl pgh ph
  else MkDpperResult ep inclp nodep argpp mp.
End Dpper.
Arguments DpperResult F : clear implicits.
Arguments DpperOptions F : clear implicits.
