(** * src/propogation/dspace.rs: deep-space secular effects and the resonance integrator *)
From Coq Require Import ZArith Bool.
From Verif.Model Require Import Float Constants.
Local Open Scope Z_scope.
Local Open Scope f_scope.

Section Dspace.
Context {F : Type} {FO : FloatOps F}.
@@consts

(** dspace.rs:4-41 *)
@@struct propogation/dspace.rs 4-41 DspaceOptions MkDspaceOptions so_

(** dspace.rs:43-54 *)
@@struct propogation/dspace.rs 43-54 DspaceResult MkDspaceResult sx_

(** dspace.rs:2 *)
@@unrename TWO_PI
@@const propogation/dspace.rs 2-2 dspace_
(** dspace.rs:172-183 *)
@@const propogation/dspace.rs 172-183 dspace_

(** Derivatives (xndt, xldot, xnddt) at an integrator state, dspace.rs:241-277. *)
Record Dots := MkDots { dt_xndt : F; dt_xldot : F; dt_xnddt : F }.
@@proj options=so_:o
@@rename xli=xli
Definition dspace_dots_sync (o : DspaceOptions) (atime xli xni : F) : Dots :=
  let del1 := so_del1 o in let del2 := so_del2 o in let del3 := so_del3 o in
  let xfact := so_xfact o in
  @@rs propogation/dspace.rs 242-249
  MkDots xndt xldot xnddt.
Definition dspace_dots_half (o : DspaceOptions) (atime xli xni : F) : Dots :=
  let d2201 := so_d2201 o in let d2211 := so_d2211 o in let d3210 := so_d3210 o in
  let d3222 := so_d3222 o in let d4410 := so_d4410 o in let d4422 := so_d4422 o in
  let d5220 := so_d5220 o in let d5232 := so_d5232 o in let d5421 := so_d5421 o in
  let d5433 := so_d5433 o in
  let argpo := so_argpo o in let argpdot := so_argpdot o in let xfact := so_xfact o in
  @@rs propogation/dspace.rs 252-276
  MkDots xndt xldot xnddt.
Definition dspace_dots (o : DspaceOptions) (atime xli xni : F) : Dots :=
  if negb (so_irez o =? (L 2 0)) then dspace_dots_sync o atime xli xni
  else dspace_dots_half o atime xli xni.

(** State of the integration loop. *)
Record Integ := MkInteg { ig_atime : F; ig_xli : F; ig_xni : F }.

(** One full step, dspace.rs:288-292. *)
Definition dspace_step (o : DspaceOptions) (delt : F) (g : Integ) : Integ :=
  let d := dspace_dots o (ig_atime g) (ig_xli g) (ig_xni g) in
  MkInteg (ig_atime g + delt)
          (ig_xli g + (dt_xldot d * delt + dt_xndt d * dspace_STEP2))
          (ig_xni g + (dt_xndt d * delt + dt_xnddt d * dspace_STEP2)).

(** Loop test, dspace.rs:281: another full step is taken. *)
Definition dspace_more (t atime : F) : bool := dspace_STEPP <=? fabs (t - atime).

(** The loop dspace.rs:238-293: at most [fuel] full steps. *)
Fixpoint dspace_loop (fuel : nat) (o : DspaceOptions) (delt : F) (g : Integ) : outcome Integ :=
  if dspace_more (so_t o) (ig_atime g) then
    match fuel with
    | O => NoFuel
    | S n => dspace_loop n o delt (dspace_step o delt g)
    end
  else Done g.

(** Epoch restart, dspace.rs:224-228. *)
Definition dspace_restart (o : DspaceOptions) : Integ :=
  let t := so_t o in let atime := so_atime o in
  if (atime =? (L 0 0)) || (t * atime <=? (L 0 0)) || (fabs t <? fabs atime)
  then MkInteg (L 0 0) (so_xlamo o) (so_no o)
  else MkInteg atime (so_xli o) (so_xni o).

(** Step direction, dspace.rs:231-235. *)
Definition dspace_delt (t : F) : F := if (L 0 0) <? t then dspace_STEPP else dspace_STEPN.

(** dspace, dspace.rs:127-319 *)
Definition dspace (fuel : nat) (o : DspaceOptions) : outcome DspaceResult :=
  let dedt := so_dedt o in let didt := so_didt o in let domdt := so_domdt o in
  let dnodt := so_dnodt o in let dmdt := so_dmdt o in
  let gsto := so_gsto o in let t := so_t o in let tc := so_tc o in
  let em := so_em o in let inclm := so_inclm o in let argpm := so_argpm o in
  let nodem := so_nodem o in let mm := so_mm o in let no := so_no o in
  let irez := so_irez o in
  @@rs propogation/dspace.rs 197-203
  if negb (irez =? (L 0 0)) then
    do! g <- dspace_loop fuel o (dspace_delt t) (dspace_restart o);
    let atime := ig_atime g in let xli := ig_xli g in let xni := ig_xni g in
    let d := dspace_dots o atime xli xni in
    let xndt := dt_xndt d in let xldot := dt_xldot d in let xnddt := dt_xnddt d in
    let ft := t - atime in
    @@rs propogation/dspace.rs 295-296
    let mm := if negb (irez =? (L 1 0)) then xl - (L 2 0) * nodem + (L 2 0) * theta
              else xl - nodem - argpm + theta in
    let dndt := nm - no in
    let nm := no + dndt in
    Done (MkDspaceResult atime em argpm inclm xli mm xni nodem dndt nm)
  else
    Done (MkDspaceResult (so_atime o) em argpm inclm (so_xli o) mm (so_xni o) nodem (L 0 0) (so_nm o)).
End Dspace.
Arguments DspaceOptions F : clear implicits.
Arguments DspaceResult F : clear implicits.
