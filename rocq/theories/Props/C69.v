(** * C69: whole texts in binary64: a file with one set, a catalogue with any number of them *)
From Coq Require Import ZArith List Bool String Reals Lra Lia.
From Flocq Require Import Core.Raux IEEE754.BinarySingleNaN.
From Verif.Model Require Import Float Str Satrec Constants Ext Vec3 Sgp4 Sgp4init Propagate Io.
From Verif.Inst Require Import RInst RTac B64.
From Verif.Spec Require Import Calendar TextSpec NumText TleSpec Str3Api LibmAccuracy NearAccuracy DeepAccuracy.
From Verif.Proofs Require Import StrFacts TextFacts IoFacts Sgp4Frame InitFrame InitElems ParseFacts.
From Verif.Props Require Import C08 C33 C34 C36 C54 C58 C63 C67.
From Verif.Props Require C25 C28 C62.
From Verif.Proofs Require LibmExists InitTotal.
Import ListNotations.
Local Open Scope R_scope.

(** Three kinds of orbits: near the Earth (full or short drag model), deep space, highly eccentric.  Which sets each
    is about, how far from the epoch (minutes), and what a binary64 answer [res] for the time [tm] has to be;
    [sR] is an exact initialisation of the elements, for its lunar-solar coefficients. *)
Inductive kind := Near (full : bool) | Deep | Eccentric.
Definition in_scope (k : kind) (t : tle) : Prop :=
  match k with Near full => usual t /\ perigee_class full (tle_elements t) | Deep => deep_usual t | Eccentric => eccentric_usual t end.
Definition horizon (k : kind) (t : tle) : R :=
  match k with Near _ => span (tle_elements t) - 1 | _ => 43199 end.
Definition answer (k : kind) (t : tle) (sR : Satrec R) (tm : R) (res : result (SGP4Result b64) SGP4Error) : Prop :=
  match k with
  | Near full => near_outcome64 full (tle_elements t) tm res
  | Deep => deep_outcome64 (tle_elements t) sR tm res
  | Eccentric => eccentric_outcome64 (tle_elements t) sR tm res
  end.
Definition exact_record (t : tle) (x : R) (sR : Satrec R) : Prop :=
  exists fuelR s0R rR, sgp4init (FO := ROps) fuelR s0R (text_options t x) = Done (sR, rR).

(** What a set decodes to: refused with the error its state at the epoch is, or a record that answers every date
    near the epoch. *)
Definition decodes_to (lm : libm) (fuel' : nat) (k : kind) (t : tle) (sR : Satrec R) (name : option str)
    (r : result (Satrec b64) SatrecParseError) : Prop :=
  exists r0 : result (SGP4Result b64) SGP4Error, answer k t sR 0 r0 /\
    match r0 with
    | Err e => r = Err (Sgp4InitError e)
    | Ok _ => exists s, r = Ok s /\ sr_name s = name /\
        forall (d : DateTime) (m : R), civil d -> in_span d -> minutes_since_epoch t d m -> Rabs m <= horizon k t ->
          exists tm res, Rabs (tm - m) <= 4 / 1000000 /\ propogate_datetime (FO := B64Ops lm) fuel' s d = Done res /\ answer k t sR tm res
    end.

Lemma renamed {F} {FO : FloatOps F} fuel nm (s : Satrec F) d : propogate_datetime fuel (set_name nm s) d = propogate_datetime fuel s d.
Proof.
  rewrite !C08_is_sgp4. assert (J : sr_jdsatepoch (set_name nm s) = sr_jdsatepoch s) by reflexivity. rewrite J.
  assert (G : set_name nm s = graft (set_name nm s) s) by (destruct s; reflexivity). rewrite G.
  generalize (fmul (fsub (jday_datetime d) (sr_jdsatepoch s)) (L 1440 0)). intros u. rewrite sgp4_graft. destruct (sgp4 fuel s u) as [[x y]| |]; reflexivity.
Qed.

(** The two element lines. *)
Lemma two_lines (lm : libm) (ACC : accurate lm) fuel fuel' l1 l2 k t x sR :
  well_written l1 l2 t -> in_scope k t -> epoch_days t x -> exact_record t x sR -> (60 <= fuel')%nat ->
  exists r, twoline2satrec (FO := B64Ops lm) fuel l1 l2 = Done r /\ decodes_to lm fuel' k t sR None r.
Proof.
  intros W S HX (fuelR & s0R & rR & HR) HF.
  assert (G : exists r0 : result (SGP4Result b64) SGP4Error, answer k t sR 0 r0 /\
    (forall e, r0 = Err e -> twoline2satrec (FO := B64Ops lm) fuel l1 l2 = Done (Err (Sgp4InitError e))) /\
    (forall v, r0 = Ok v -> exists s : Satrec b64, twoline2satrec (FO := B64Ops lm) fuel l1 l2 = Done (Ok s) /\
       forall (d : DateTime) (m : R), civil d -> in_span d -> minutes_since_epoch t d m -> Rabs m <= horizon k t ->
         exists tm res, Rabs (tm - m) <= 4 / 1000000 /\ propogate_datetime (FO := B64Ops lm) fuel' s d = Done res /\ answer k t sR tm res)).
  { destruct k as [full| |]; cbn [in_scope horizon answer] in *.
    - destruct S as (U & P). exact (C58_text_to_binary64_state lm ACC full fuel fuel' l1 l2 t W U P).
    - destruct (C63_text_to_deep_state lm ACC fuel fuel' l1 l2 t x W S HX HF) as (r0 & _ & K). destruct (K _ _ _ _ HR) as (K1 & K2 & K3). exists r0. split; [exact K1|]. split; [exact K2|].
      intros v E. destruct (K3 v E) as (s & T & A). exists s. split; [exact T|]. intros d m Cd Sd M HM. apply A; try assumption. apply Rabs_le_inv in HM. lra.
    - destruct (C67_text_to_state lm ACC fuel fuel' l1 l2 t x W S HX HF) as (r0 & _ & K). destruct (K _ _ _ _ HR) as (K1 & K2 & K3). exists r0. split; [exact K1|]. split; [exact K2|].
      intros v E. destruct (K3 v E) as (s & T & A). exists s. split; [exact T|]. intros d m Cd Sd M HM. apply A; try assumption. apply Rabs_le_inv in HM. lra. }
  destruct G as (r0 & A0 & G1 & G2). destruct r0 as [v|e].
  - destruct (G2 v eq_refl) as (s & T & A). exists (Ok s). split; [exact T|]. exists (Ok v). split; [exact A0|]. exists s. split; [reflexivity|]. split; [exact (twoline_no_name _ _ _ _ T)|exact A].
  - exists (Err (Sgp4InitError e)). split; [exact (G1 e eq_refl)|]. exists (Err e). split; [exact A0|reflexivity].
Qed.
Lemma with_name lm fuel' k t sR nm nm' r : decodes_to lm fuel' k t sR nm r ->
  decodes_to lm fuel' k t sR nm' (match r with Ok s => Ok (set_name nm' s) | Err err => Err err end).
Proof.
  intros (r0 & A0 & D). exists r0. split; [exact A0|]. destruct r0 as [v|e]; [|subst r; reflexivity].
  destruct D as (s & -> & _ & A). exists (set_name nm' s). split; [reflexivity|]. split; [reflexivity|]. intros d m Cd Sd M HM.
  destruct (A d m Cd Sd M HM) as (tm & res & E & P & Q). exists tm, res. split; [exact E|]. split; [rewrite renamed; exact P|exact Q].
Qed.

(** A text with one set, with or without a name line, blank lines anywhere: [parse] returns, and what it returns is
    refused for the theory's reason at the epoch or answers every date near the epoch as the theory does. *)
Theorem C69_file :
  forall (lm : libm), accurate lm ->
  forall (fuel fuel' : nat) (ps : list str) (l1 l2 : str) (k : kind) (t : tle) (x : R) (sR : Satrec R),
    Forall one_line ps -> starts 49 l1 -> starts 50 l2 ->
    well_written l1 l2 t -> in_scope k t -> epoch_days t x -> exact_record t x sR -> (60 <= fuel')%nat ->
    (content ps = [l1; l2] -> exists r, parse (FO := B64Ops lm) fuel (join ps) = Done r /\ decodes_to lm fuel' k t sR None r) /\
    (forall n name, content ps = [n; l1; l2] -> (forall c, In c n -> (0 <= c)%Z) -> line_name n name ->
       exists r, parse (FO := B64Ops lm) fuel (join ps) = Done r /\ decodes_to lm fuel' k t sR (Some name) r).
Proof.
  intros lm ACC fuel fuel' ps l1 l2 k t x sR O S1 S2 W S HX HR HF.
  destruct (two_lines lm ACC fuel fuel' l1 l2 k t x sR W S HX HR HF) as (r & T & D).
  destruct (C33_checks_come_first b64 (B64Ops lm) fuel ps O) as (_ & _ & Q). split.
  - intros C. exists r. split; [|exact D]. destruct r as [s|e]; [|apply (proj2 (Q l1 l2 (or_introl C) S1 S2 e) T)].
    rewrite (parse_two fuel ps l1 l2 O C). destruct (starts_dec 49 l1) as [_|N]; [|contradiction]. destruct (starts_dec 50 l2) as [_|N]; [exact T|contradiction].
  - intros n name C P N. exists (match r with Ok s => Ok (set_name (Some name) s) | Err e => Err e end). split; [|exact (with_name _ _ _ _ _ _ _ _ D)].
    destruct (C34_three_line_sets b64 (B64Ops lm) fuel ps n l1 l2 O C S1 S2 P) as (C1 & _).
    destruct r as [s|e]; [exact (C1 name s N T)|apply (proj2 (Q l1 l2 (or_intror (ex_intro _ n C)) S1 S2 e) T)].
Qed.
Print Assumptions C69_file.

(** An entry of a catalogue: its three lines, the name read from the first, and the numbers written in the others. *)
Record entry := Entry { e_set : set3; e_name : str; e_kind : kind; e_tle : tle; e_epoch : R; e_exact : Satrec R }.
Definition good_entry (e : entry) : Prop :=
  blen (trim (s_name (e_set e))) <> 25%nat /\ line_name (s_name (e_set e)) (e_name e) /\
  well_written (s_one (e_set e)) (s_two (e_set e)) (e_tle e) /\ in_scope (e_kind e) (e_tle e) /\
  epoch_days (e_tle e) (e_epoch e) /\ exact_record (e_tle e) (e_epoch e) (e_exact e).

(** A catalogue of any number of such entries: [parse_multiple] returns; in order, every entry is either one of the
    errors, with the number of its first line, or one of the records, with its name trimmed, and that record answers
    every date near its epoch as the theory does. *)
Theorem C69_catalogue :
  forall (lm : libm), accurate lm ->
  forall (fuel fuel' : nat) (ps : list str) (es : list entry),
    Forall one_line ps -> (forall p c, In p ps -> In c p -> (0 <= c)%Z) ->
    content ps = lines3 (map e_set es) -> Forall good_entry es -> (60 <= fuel')%nat ->
    exists rs : list (result (Satrec b64) SatrecParseError),
      parse_multiple (FO := B64Ops lm) fuel (join ps) = Done (records rs, errors3 0 rs) /\
      Forall2 (fun e r => decodes_to lm fuel' (e_kind e) (e_tle e) (e_exact e) (Some (trim (e_name e))) r) es rs.
Proof.
  intros lm ACC fuel fuel' ps es O P C GE HF.
  assert (K : exists rs, Forall2 (decodes (FO := B64Ops lm) fuel) (map e_set es) rs /\
    Forall2 (fun e r => decodes_to lm fuel' (e_kind e) (e_tle e) (e_exact e) (Some (trim (e_name e))) r) es rs).
  { clear O P C. induction GE as [|e es (N25 & NM & W & S & HX & HR) _ (rs & I1 & I2)]; [exists []; split; constructor|].
    destruct (two_lines lm ACC fuel fuel' _ _ _ _ _ _ W S HX HR HF) as (r & T & D).
    exists ((match r with Ok s => Ok (set_name (Some (trim (e_name e))) s) | Err err => Err err end) :: rs). split; constructor; [|exact I1|exact (with_name _ _ _ _ _ _ _ _ D)|exact I2].
    split; [exact N25|]. exists (e_name e), r. split; [exact NM|]. split; [exact T|reflexivity]. }
  destruct K as (rs & K1 & K2). exists rs. split; [|exact K2]. exact (C36_catalogue b64 (B64Ops lm) fuel ps (map e_set es) rs O P C K1).
Qed.
Print Assumptions C69_catalogue.

(** Non-vacuity: a catalogue of three entries, one of each kind, with a blank line in it; the first and second lines
    of each are those of C28, C54 and C67. *)
Definition iss_set := Set3 (of_string "0 ISS (ZARYA)") C25.iss1 C25.iss2.
Definition geo_set := Set3 (of_string "GEO") C25.iss1 C54.geo2.
Definition mol_set := Set3 (of_string "MOLNIYA") C25.iss1 mol2.
Lemma record_exists t x : exists sR, exact_record t x sR.
Proof. destruct (InitTotal.sgp4init_total InitTotal.zero_sane_R 0 satrec_zero (text_options t x)) as (sR & rR & H). exists sR. now exists 0%nat, satrec_zero, rR. Qed.
Example C69_example :
  accurate LibmExists.exact_lm /\
  exists x sI sG sM,
    let es := [Entry iss_set (of_string "ISS (ZARYA)") (Near true) C28.iss x sI; Entry geo_set (of_string "GEO") Deep C54.geo x sG;
               Entry mol_set (of_string "MOLNIYA") Eccentric mol x sM] in
    Forall good_entry es /\
    let ps := [s_name iss_set; C25.iss1; C25.iss2; of_string "  "; s_name geo_set; C25.iss1; C54.geo2; s_name mol_set; C25.iss1; mol2; []] in
    Forall one_line ps /\ (forall p c, In p ps -> In c p -> (0 <= c)%Z) /\ content ps = lines3 (map e_set es).
Proof.
  split; [exact LibmExists.exact_lm_accurate|].
  destruct C58_example as (_ & XB & _). destruct (XB true) as (I1 & I2 & I3). destruct C63_example as (_ & G1 & G2 & (x & GX & _) & _). destruct C67_text_example as (_ & M1 & M2 & _).
  destruct (record_exists C28.iss x) as (sI & HI). destruct (record_exists C54.geo x) as (sG & HG). destruct (record_exists mol x) as (sM & HM).
  exists x, sI, sG, sM. cbv zeta. split.
  { assert (Y : forall t, t_year t = t_year C54.geo -> t_day t = t_day C54.geo -> epoch_days t x).
    { intros t E1 E2. unfold epoch_days. rewrite E1, E2. exact GX. }
    constructor; [|constructor; [|constructor; [|constructor]]]; unfold good_entry; cbn [e_set e_name e_kind e_tle e_epoch e_exact s_name s_one s_two in_scope iss_set geo_set mol_set].
    all: split; [intros K; discriminate K|]. all: split; [first [refine (marked 32 (of_string "ISS (ZARYA)") _); lia|apply plain; intros K; cbn in K; destruct K; discriminate]|]. all: split; [assumption|]. all: split; [first [assumption|split; assumption]|]. all: split; [apply Y; reflexivity|assumption]. }
  split. { repeat constructor; intros K; cbn in K; repeat (destruct K as [K|K]; [discriminate K|]); exact K. }
  split. { intros p c Hp Hc. assert (Q : Forall (fun p => Forall (fun c => (0 <= c)%Z) p) [s_name iss_set; C25.iss1; C25.iss2; of_string "  "; s_name geo_set; C25.iss1; C54.geo2; s_name mol_set; C25.iss1; mol2; []]) by (repeat constructor; lia).
    rewrite Forall_forall in Q. specialize (Q p Hp). rewrite Forall_forall in Q. now apply Q. }
  vm_compute. reflexivity.
Qed.
