(** * src/propogation/dpper.rs: long-period lunar-solar periodics *)
From Coq Require Import ZArith Bool.
From Verif.Model Require Import Float Str Satrec Constants.
Local Open Scope Z_scope.
Local Open Scope f_scope.

Section Dpper.
Context {F : Type} {FO : FloatOps F}.
@@consts

(** dpper.rs:6-12 *)
@@struct propogation/dpper.rs 6-12 DpperResult MkDpperResult pr_

(** dpper.rs:27-37 *)
@@struct propogation/dpper.rs 27-37 DpperOptions MkDpperOptions po_

(** dpper.rs:4 *)
@@unrename TWO_PI
@@const propogation/dpper.rs 4-4 dpper_
(** dpper.rs:173-176 *)
@@const propogation/dpper.rs 173-176 dpper_

(** The summed solar and lunar periodic terms (pe, pinc, pl, pgh, ph): dpper.rs:179-218. *)
Record Periodics := MkPeriodics { pt_pe : F; pt_pinc : F; pt_pl : F; pt_pgh : F; pt_ph : F }.

@@proj satrec=sr_:satrec
Definition dpper_terms (satrec : Satrec F) (init : DpperInit) : Periodics :=
  @@rs propogation/dpper.rs 106-137
  @@rs propogation/dpper.rs 179-179
  let zm := if init_eqb init InitY then zmos else zm in (* dpper.rs:182-184 *)
  @@rs propogation/dpper.rs 186-197
  let zm := if init_eqb init InitY then zmol else zm in (* dpper.rs:199-201 *)
  @@rs propogation/dpper.rs 203-218
  MkPeriodics pe pinc pl pgh ph.

(** Periodics applied directly, dpper.rs:241-245 *)
Definition dpper_direct (sinip cosip ep inclp nodep argpp mp pl pgh ph : F) : DpperResult :=
  @@rs propogation/dpper.rs 241-245
  MkDpperResult ep inclp nodep argpp mp.

(** Periodics applied with the Lyddane modification, dpper.rs:248-282 *)
Definition dpper_lyddane (opsmode : DpperOpsMode)
    (sinip cosip ep inclp nodep argpp mp pinc pl pgh ph : F) : DpperResult :=
  @@rs propogation/dpper.rs 248-256
  let nodep := if (nodep <? (L 0 0)) && opsmode_eqb opsmode OpsA then nodep + dpper_TWO_PI else nodep in
  @@rs propogation/dpper.rs 263-267
  let nodep := if (nodep <? (L 0 0)) && opsmode_eqb opsmode OpsA then nodep + dpper_TWO_PI else nodep in
  let nodep := if kPI <? fabs (xnoh - nodep)
               then (if nodep <? xnoh then nodep + dpper_TWO_PI else nodep - dpper_TWO_PI)
               else nodep in
  @@rs propogation/dpper.rs 281-282
  MkDpperResult ep inclp nodep argpp mp.

(** dpper, dpper.rs:105-293 *)
Definition dpper (satrec : Satrec F) (options : DpperOptions) : DpperResult :=
  let init := po_init options in
  let opsmode := po_opsmode options in
  let ep := po_ep options in
  let inclp := po_inclp options in
  let nodep := po_nodep options in
  let argpp := po_argpp options in
  let mp := po_mp options in
  let p := dpper_terms satrec init in
  let pe := pt_pe p in let pinc := pt_pinc p in let pl := pt_pl p in
  let pgh := pt_pgh p in let ph := pt_ph p in
  if init_eqb init InitN then
    let pe := pe - sr_peo satrec in
    let pinc := pinc - sr_pinco satrec in
    let pl := pl - sr_plo satrec in
    let pgh := pgh - sr_pgho satrec in
    let ph := ph - sr_pho satrec in
    @@rs propogation/dpper.rs 226-229
    if (L 2 1) <=? inclp
    then dpper_direct sinip cosip ep inclp nodep argpp mp pl pgh ph
    else dpper_lyddane opsmode sinip cosip ep inclp nodep argpp mp pinc pl pgh ph
  else MkDpperResult ep inclp nodep argpp mp.
End Dpper.
Arguments DpperResult F : clear implicits.
Arguments DpperOptions F : clear implicits.
