(** * src/propogation/dspace.rs: deep-space secular effects and the resonance integrator *)
From Coq Require Import ZArith Bool.
From Verif.Model Require Import Float Constants.
Local Open Scope Z_scope.
Local Open Scope f_scope.

Section Dspace.
Context {F : Type} {FO : FloatOps F}.

(** dspace.rs:4-41 *)
Record DspaceOptions := MkDspaceOptions {
  so_irez : F;
  so_d2201 : F;
  so_d2211 : F;
  so_d3210 : F;
  so_d3222 : F;
  so_d4410 : F;
  so_d4422 : F;
  so_d5220 : F;
  so_d5232 : F;
  so_d5421 : F;
  so_d5433 : F;
  so_dedt : F;
  so_del1 : F;
  so_del2 : F;
  so_del3 : F;
  so_didt : F;
  so_dmdt : F;
  so_dnodt : F;
  so_domdt : F;
  so_argpo : F;
  so_argpdot : F;
  so_t : F;
  so_tc : F;
  so_gsto : F;
  so_xfact : F;
  so_xlamo : F;
  so_no : F;
  so_atime : F;
  so_em : F;
  so_argpm : F;
  so_inclm : F;
  so_xli : F;
  so_mm : F;
  so_xni : F;
  so_nodem : F;
  so_nm : F
}.

(** dspace.rs:43-54 *)
Record DspaceResult := MkDspaceResult {
  sx_atime : F;
  sx_em : F;
  sx_argpm : F;
  sx_inclm : F;
  sx_xli : F;
  sx_mm : F;
  sx_xni : F;
  sx_nodem : F;
  sx_dndt : F;
  sx_nm : F
}.

(** dspace.rs:2 *)
Definition dspace_TWO_PI : F := kPI * (L 2 0). (* propogation/dspace.rs:2 *)
(** dspace.rs:172-183 *)
Definition dspace_FASX2 : F := (L 13130908 8). (* propogation/dspace.rs:172 *)
Definition dspace_FASX4 : F := (L 28843198 7). (* propogation/dspace.rs:173 *)
Definition dspace_FASX6 : F := (L 37448087 8). (* propogation/dspace.rs:174 *)
Definition dspace_G22 : F := (L 57686396 7). (* propogation/dspace.rs:175 *)
Definition dspace_G32 : F := (L 95240898 8). (* propogation/dspace.rs:176 *)
Definition dspace_G44 : F := (L 18014998 7). (* propogation/dspace.rs:177 *)
Definition dspace_G52 : F := (L 1050833 6). (* propogation/dspace.rs:178 *)
Definition dspace_G54 : F := (L 44108898 7). (* propogation/dspace.rs:179 *)
Definition dspace_RPTIM : F := (L 437526908801129966 20). (* propogation/dspace.rs:180 *)
Definition dspace_STEPP : F := (L 720 0). (* propogation/dspace.rs:181 *)
Definition dspace_STEPN : F := (- (L 720 0)). (* propogation/dspace.rs:182 *)
Definition dspace_STEP2 : F := (L 259200 0). (* propogation/dspace.rs:183 *)

(** Derivatives (xndt, xldot, xnddt) at an integrator state, dspace.rs:241-277. *)
Record Dots := MkDots { dt_xndt : F; dt_xldot : F; dt_xnddt : F }.
Definition dspace_dots_sync (o : DspaceOptions) (atime xli xni : F) : Dots :=
  let del1 := so_del1 o in let del2 := so_del2 o in let del3 := so_del3 o in
  let xfact := so_xfact o in
  let xndt := del1 * fsin (xli - dspace_FASX2) + del2 * fsin ((L 2 0) * (xli - dspace_FASX4)) + del3 * fsin ((L 3 0) * (xli - dspace_FASX6)) in
  let xldot := xni + xfact in
  let xnddt := del1 * fcos (xli - dspace_FASX2) + (L 2 0) * del2 * fcos ((L 2 0) * (xli - dspace_FASX4)) + (L 3 0) * del3 * fcos ((L 3 0) * (xli - dspace_FASX6)) in
  let xnddt := xnddt * xldot in
  MkDots xndt xldot xnddt.
Definition dspace_dots_half (o : DspaceOptions) (atime xli xni : F) : Dots :=
  let d2201 := so_d2201 o in let d2211 := so_d2211 o in let d3210 := so_d3210 o in
  let d3222 := so_d3222 o in let d4410 := so_d4410 o in let d4422 := so_d4422 o in
  let d5220 := so_d5220 o in let d5232 := so_d5232 o in let d5421 := so_d5421 o in
  let d5433 := so_d5433 o in
  let argpo := so_argpo o in let argpdot := so_argpdot o in let xfact := so_xfact o in
  let xomi := argpo + argpdot * atime in
  let x2omi := xomi + xomi in
  let x2li := xli + xli in
  let xndt := d2201 * fsin (x2omi + xli - dspace_G22) + d2211 * fsin (xli - dspace_G22) + d3210 * fsin (xomi + xli - dspace_G32) + d3222 * fsin ((- xomi) + xli - dspace_G32) + d4410 * fsin (x2omi + x2li - dspace_G44) + d4422 * fsin (x2li - dspace_G44) + d5220 * fsin (xomi + xli - dspace_G52) + d5232 * fsin ((- xomi) + xli - dspace_G52) + d5421 * fsin (xomi + x2li - dspace_G54) + d5433 * fsin ((- xomi) + x2li - dspace_G54) in
  let xldot := xni + xfact in
  let xnddt := d2201 * fcos (x2omi + xli - dspace_G22) + d2211 * fcos (xli - dspace_G22) + d3210 * fcos (xomi + xli - dspace_G32) + d3222 * fcos ((- xomi) + xli - dspace_G32) + d5220 * fcos (xomi + xli - dspace_G52) + d5232 * fcos ((- xomi) + xli - dspace_G52) + (L 2 0) * d4410 * fcos (x2omi + x2li - dspace_G44) + d4422 * fcos (x2li - dspace_G44) + d5421 * fcos (xomi + x2li - dspace_G54) + d5433 * fcos ((- xomi) + x2li - dspace_G54) in
  let xnddt := xnddt * xldot in
  MkDots xndt xldot xnddt.
Definition dspace_dots (o : DspaceOptions) (atime xli xni : F) : Dots :=
  if negb (so_irez o =? (L 2 0)) then dspace_dots_sync o atime xli xni
  else dspace_dots_half o atime xli xni.

(** State of the integration loop. *)
Record Integ := MkInteg { ig_atime : F; ig_xli : F; ig_xni : F }.

(** One full step, dspace.rs:288-292. *)
Definition dspace_step (o : DspaceOptions) (delt : F) (g : Integ) : Integ :=
  let d := dspace_dots o (ig_atime g) (ig_xli g) (ig_xni g) in
  MkInteg (ig_atime g + delt)
          (ig_xli g + (dt_xldot d * delt + dt_xndt d * dspace_STEP2))
          (ig_xni g + (dt_xndt d * delt + dt_xnddt d * dspace_STEP2)).

(** Loop test, dspace.rs:281: another full step is taken. *)
Definition dspace_more (t atime : F) : bool := dspace_STEPP <=? fabs (t - atime).

(** The loop dspace.rs:238-293: at most [fuel] full steps. *)
Fixpoint dspace_loop (fuel : nat) (o : DspaceOptions) (delt : F) (g : Integ) : outcome Integ :=
  if dspace_more (so_t o) (ig_atime g) then
    match fuel with
    | O => NoFuel
    | S n => dspace_loop n o delt (dspace_step o delt g)
    end
  else Done g.

(** Epoch restart, dspace.rs:224-228. *)
Definition dspace_restart (o : DspaceOptions) : Integ :=
  let t := so_t o in let atime := so_atime o in
  if (atime =? (L 0 0)) || (t * atime <=? (L 0 0)) || (fabs t <? fabs atime)
  then MkInteg (L 0 0) (so_xlamo o) (so_no o)
  else MkInteg atime (so_xli o) (so_xni o).

(** Step direction, dspace.rs:231-235. *)
Definition dspace_delt (t : F) : F := if (L 0 0) <? t then dspace_STEPP else dspace_STEPN.

(** dspace, dspace.rs:127-319 *)
Definition dspace (fuel : nat) (o : DspaceOptions) : outcome DspaceResult :=
  let dedt := so_dedt o in let didt := so_didt o in let domdt := so_domdt o in
  let dnodt := so_dnodt o in let dmdt := so_dmdt o in
  let gsto := so_gsto o in let t := so_t o in let tc := so_tc o in
  let em := so_em o in let inclm := so_inclm o in let argpm := so_argpm o in
  let nodem := so_nodem o in let mm := so_mm o in let no := so_no o in
  let irez := so_irez o in
  let theta := (gsto + tc * dspace_RPTIM) %% dspace_TWO_PI in
  let em := em + dedt * t in
  let inclm := inclm + didt * t in
  let argpm := argpm + domdt * t in
  let nodem := nodem + dnodt * t in
  let mm := mm + dmdt * t in
  if negb (irez =? (L 0 0)) then
    do! g <- dspace_loop fuel o (dspace_delt t) (dspace_restart o);
    let atime := ig_atime g in let xli := ig_xli g in let xni := ig_xni g in
    let d := dspace_dots o atime xli xni in
    let xndt := dt_xndt d in let xldot := dt_xldot d in let xnddt := dt_xnddt d in
    let ft := t - atime in
    let nm := xni + xndt * ft + xnddt * ft * ft * (L 5 1) in
    let xl := xli + xldot * ft + xndt * ft * ft * (L 5 1) in
    let mm := if negb (irez =? (L 1 0)) then xl - (L 2 0) * nodem + (L 2 0) * theta
              else xl - nodem - argpm + theta in
    let dndt := nm - no in
    let nm := no + dndt in
    Done (MkDspaceResult atime em argpm inclm xli mm xni nodem dndt nm)
  else
    Done (MkDspaceResult (so_atime o) em argpm inclm (so_xli o) mm (so_xni o) nodem (L 0 0) (so_nm o)).
End Dspace.
Arguments DspaceOptions F : clear implicits.
Arguments DspaceResult F : clear implicits.
