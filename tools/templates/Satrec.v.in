(** * The satellite record [Satrec] (src/io.rs) and the small enums it stores. *)
From Coq Require Import ZArith List.
From Verif.Model Require Import Float Str.
Import ListNotations.

(** dpper.rs:14-18 *)
Inductive DpperInit := InitY | InitN.
(** dpper.rs:20-25 *)
Inductive DpperOpsMode := OpsA | OpsI | OpsUndefined.
(** initl.rs:84-88 *)
Inductive InitlMethod := MethodN | MethodD.

(** [==] on the enums (derived PartialEq) *)
Definition init_eqb (a b : DpperInit) : bool :=
  match a, b with InitY, InitY | InitN, InitN => true | _, _ => false end.
Definition opsmode_eqb (a b : DpperOpsMode) : bool :=
  match a, b with OpsA, OpsA | OpsI, OpsI | OpsUndefined, OpsUndefined => true | _, _ => false end.
Definition method_eqb (a b : InitlMethod) : bool :=
  match a, b with MethodN, MethodN | MethodD, MethodD => true | _, _ => false end.

Section Satrec.
Context {F : Type} {FO : FloatOps F}.

(** io.rs:9-117 (u32 and i64 fields are modelled as Z: the code only stores small constants in
    [error] and [isimp], and a parsed two-character number in [epochyr]). *)
@@struct io.rs 9-117 Satrec MkSatrec sr_

(** Field assignment [satrec.x = v]. *)
@@setters io.rs 9-117 MkSatrec sr_ Satrec

(** Satrec::zero, io.rs:120-230 *)
Definition satrec_zero : Satrec :=
  @@zero io.rs 122-228 MkSatrec
.
End Satrec.
Arguments Satrec F : clear implicits.
