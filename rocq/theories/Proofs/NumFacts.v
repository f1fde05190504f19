(** * The number readers accept exactly the documented grammars, with the documented value *)
From Coq Require Import ZArith List Bool Lia.
From Verif.Model Require Import Float Str.
From Verif.Spec Require Import TextSpec NumText.
From Verif.Proofs Require Import StrFacts TextFacts.
Import ListNotations.
Local Open Scope Z_scope.

Lemma all_digits_iff d : all_digits d <-> digits d.
Proof.
  unfold all_digits, digits, digit. rewrite forallb_forall. split; intros H c Hc; apply is_digit_range, H, Hc.
Qed.
Lemma value_digits d : value d = digits_val d.
Proof. induction d as [|c d IH]; [reflexivity|]. rewrite digits_val_cons, <- IH. reflexivity. Qed.
Lemma all_digits_app a b : all_digits (a ++ b) <-> all_digits a /\ all_digits b.
Proof. unfold all_digits. split; [intros H; split; intros c Hc; apply H, in_or_app; tauto|intros [A B] c Hc; apply in_app_or in Hc; firstorder]. Qed.
Lemma all_digits_cons c d : all_digits (c :: d) <-> digit c /\ all_digits d.
Proof. change (c :: d) with ([c] ++ d). rewrite all_digits_app. unfold all_digits at 1. split; intros [A B]; split; auto; [apply A; now left|intros e [<-|[]]; exact A]. Qed.

(** ** characters of number texts are visible *)
Definition visible (x : str) : Prop := forall c, In c x -> is_ws c = false.
Lemma visible_app a b : visible a -> visible b -> visible (a ++ b).
Proof. intros A B c Hc. apply in_app_or in Hc. destruct Hc; auto. Qed.
Lemma visible_cons c d : is_ws c = false -> visible d -> visible (c :: d).
Proof. intros C D e [<-|H]; auto. Qed.
Lemma visible_digits d : all_digits d -> visible d.
Proof. intros D c Hc. specialize (D c Hc). unfold digit in D. apply not_ws. lia. Qed.
Lemma visible_sign s n : sign_text s n -> visible s.
Proof. intros []; intros c Hc; repeat destruct Hc as [<-|Hc]; try contradiction; reflexivity. Qed.
Lemma visible_point p m k : point_text p m k -> visible p.
Proof.
  intros [d N D|i f N D]; [now apply visible_digits|]. apply all_digits_app in D. destruct D as [A B].
  apply visible_app; [now apply visible_digits|]. apply visible_cons; [reflexivity|now apply visible_digits].
Qed.
Lemma visible_exp p e : exp_text p e -> visible p.
Proof.
  intros [|c sg neg d C S N D]; [intros c []|]. apply visible_cons; [destruct C as [-> | ->]; reflexivity|].
  apply visible_app; [now apply (visible_sign _ neg)|now apply visible_digits].
Qed.
Lemma visible_number y neg m k : number_text y neg m k -> visible y.
Proof. intros []. apply visible_app; [now apply (visible_sign _ neg0)|]. apply visible_app; [now apply (visible_point _ m0 k0)|now apply (visible_exp _ e)]. Qed.
Lemma padded_trim x y : padded x y -> visible y -> trim x = y.
Proof. intros (a & b & -> & A & B) V. rewrite blank_ws in A, B. apply trim_app; [exact A|exact B|now apply tight_all]. Qed.
Lemma padded_of_trim x : padded x (trim x).
Proof. destruct (trim_parts x) as (a & b & E & A & B). exists a, b. rewrite !blank_ws. now split. Qed.

(** ** integers *)
Lemma parse_i64_spec x v : parse_i64 (trim x) = Some v <-> int_text x v.
Proof.
  split.
  - intros H. assert (R : - 2 ^ 63 <= v < 2 ^ 63).
    { clear -H. unfold parse_i64 in H. destruct (match trim x with [] => _ | _ => _ end) as [neg body]. destruct body as [|c r]; [discriminate|].
      destruct (span_digits (c :: r)) as [d rest]. destruct rest; [|discriminate]. cbv zeta in H.
      destruct (_ && _) eqn:E; [|discriminate]. injection H as <-. apply andb_true_iff in E. rewrite !Z.leb_le in E. lia. }
    pose proof (padded_of_trim x) as P. destruct (parse_i64_digits _ _ H) as (d & D & N & C). apply all_digits_iff in D.
    assert (d <> []) by (intros ->; cbn in N; lia). rewrite <- value_digits in C.
    destruct C as [[E ->]|[[E ->]|[E ->]]]; rewrite E in P.
    + exists [], false, d. refine (conj P (conj _ (conj _ (conj D (conj eq_refl R))))); [constructor|assumption].
    + exists [43], false, d. refine (conj P (conj _ (conj _ (conj D (conj eq_refl R))))); [constructor|assumption].
    + exists [45], true, d. refine (conj P (conj _ (conj _ (conj D (conj eq_refl R))))); [constructor|assumption].
  - intros (sg & neg & d & P & S & N & D & -> & R). rewrite (padded_trim _ _ P).
    2:{ apply visible_app; [now apply (visible_sign _ neg)|now apply visible_digits]. }
    assert (G : forall b : bool, match d with
      | [] => None
      | _ => let (d0, rest) := span_digits d in
             match rest with
             | [] => let v := if b then - digits_val d0 else digits_val d0 in
                     if (- 9223372036854775808 <=? v) && (v <=? 9223372036854775807) then Some v else None
             | _ => None
             end
      end = if (- 9223372036854775808 <=? signed b (value d)) && (signed b (value d) <=? 9223372036854775807) then Some (signed b (value d)) else None).
    { intros b. destruct d as [|c r] eqn:E; [congruence|]. rewrite <- E in *. rewrite span_digits_all by now apply all_digits_iff. unfold signed. now rewrite value_digits. }
    unfold parse_i64. destruct S; cbn [app signed] in *.
    + destruct d as [|c r] eqn:E; [congruence|]. rewrite <- E in *. assert (C : digit c) by (apply D; rewrite E; now left). unfold digit in C.
      destruct (Z.eqb_spec c 45); [lia|]. destruct (Z.eqb_spec c 43); [lia|]. specialize (G false). rewrite G. cbn [signed].
      rewrite !(proj2 (Z.leb_le _ _)) by lia. now rewrite E.
    + change (43 =? 45) with false. change (43 =? 43) with true. cbv iota. etransitivity; [apply (G false)|]. cbn [signed]. rewrite !(proj2 (Z.leb_le _ _)) by lia. reflexivity.
    + change (45 =? 45) with true. cbv iota. etransitivity; [apply (G true)|]. cbn [signed]. rewrite !(proj2 (Z.leb_le _ _)) by lia. reflexivity.
Qed.

(** ** decimals *)
Lemma span_nodigit r : (forall c q, r = c :: q -> is_digit c = false) -> span_digits r = ([], r).
Proof. intros H. apply (span_digits_app [] r); [reflexivity|exact H]. Qed.
Lemma parse_exp_spec s e : parse_exp s = Some e <-> exp_text s e.
Proof.
  split.
  - destruct s as [|c r]; cbn [parse_exp]; [intros [= <-]; constructor|].
    destruct ((c =? 101) || (c =? 69)) eqn:C; [|discriminate]. apply orb_true_iff in C. rewrite !Z.eqb_eq in C.
    assert (G : forall (b : bool) body, (let (d, rest) := span_digits body in
       match d, rest with _ :: _, [] => Some (if b then - digits_val d else digits_val d) | _, _ => None end) = Some e ->
       body <> [] /\ all_digits body /\ e = signed b (value body)).
    { intros b body. destruct (span_digits body) as [d rest] eqn:E. destruct (span_digits_spec _ _ _ E) as (-> & D & _).
      destruct d as [|d0 d]; [discriminate|]. destruct rest; [|discriminate]. rewrite app_nil_r. intros [= <-]. split; [discriminate|]. split; [now apply all_digits_iff|].
      unfold signed. now rewrite value_digits. }
    destruct r as [|c' r']; [discriminate|]. destruct (Z.eqb_spec c' 45) as [->|].
    + intros H. apply (G true) in H. destruct H as (N & D & ->). apply (with_exp c [45] true r' C); [constructor|assumption|assumption].
    + destruct (Z.eqb_spec c' 43) as [->|]; intros H; apply (G false) in H; destruct H as (N & D & ->).
      * apply (with_exp c [43] false r' C); [constructor|assumption|assumption].
      * apply (with_exp c [] false (c' :: r') C); [constructor|assumption|assumption].
  - intros [|c sg neg d C S N D]; [reflexivity|]. cbn [parse_exp]. replace ((c =? 101) || (c =? 69)) with true by (destruct C as [-> | ->]; reflexivity).
    assert (D' := D). apply all_digits_iff in D'. destruct d as [|d0 d]; [congruence|]. apply all_digits_cons in D. destruct D as [D0 D]. unfold digit in D0.
    assert (G : forall b : bool, (let (d1, rest) := span_digits (d0 :: d) in
      match d1, rest with _ :: _, [] => Some (if b then - digits_val d1 else digits_val d1) | _, _ => None end) = Some (signed b (value (d0 :: d)))).
    { intros b. rewrite span_digits_all by assumption. unfold signed. now rewrite value_digits. }
    destruct S; cbn [app].
    + destruct (Z.eqb_spec d0 45); [lia|]. destruct (Z.eqb_spec d0 43); [lia|]. apply (G false).
    + change (43 =? 45) with false. change (43 =? 43) with true. apply (G false).
    + change (45 =? 45) with true. apply (G true).
Qed.
Lemma exp_head p e c q : exp_text p e -> p = c :: q -> is_digit c = false /\ c <> 46.
Proof. intros [|c0 sg neg d C S N D] E; [discriminate|]. injection E as -> _. destruct C as [-> | ->]; split; (reflexivity || discriminate). Qed.
Lemma parse_decimal_spec s m k : parse_decimal s = Some (m, k) <-> exists p x k0 e, s = p ++ x /\ point_text p m k0 /\ exp_text x e /\ k = k0 + e.
Proof.
  unfold parse_decimal. split.
  - destruct (span_digits s) as [ip r1] eqn:E1. destruct (span_digits_spec _ _ _ E1) as (-> & D1 & H1). destruct r1 as [|c r].
    + destruct ip as [|c0 ip]; cbn [app]; [discriminate|]. rewrite !app_nil_r. cbn [parse_exp length]. intros [= <- <-].
      exists (c0 :: ip), [], 0, 0. rewrite app_nil_r, <- value_digits. repeat split; [constructor; [discriminate|now apply all_digits_iff]|constructor].
    + destruct (Z.eqb_spec c 46) as [->|C].
      * destruct (span_digits r) as [fp r2] eqn:E2. destruct (span_digits_spec _ _ _ E2) as (-> & D2 & H2).
        destruct (ip ++ fp) as [|c0 ds] eqn:Ed; [discriminate|]. destruct (parse_exp r2) as [e|] eqn:X; [|discriminate]. intros [= <- <-].
        exists (ip ++ 46 :: fp), r2, (- Z.of_nat (length fp)), e. rewrite <- app_assoc. repeat split.
        -- rewrite <- Ed, <- value_digits. constructor; [rewrite Ed; discriminate|]. apply all_digits_app. split; now apply all_digits_iff.
        -- now apply parse_exp_spec.
        -- lia.
      * rewrite app_nil_r. destruct ip as [|c0 ip]; [discriminate|]. destruct (parse_exp (c :: r)) as [e|] eqn:X; [|discriminate]. intros [= <- <-].
        exists (c0 :: ip), (c :: r), 0, e. repeat split; [|now apply parse_exp_spec|cbn [length]; lia].
        rewrite <- value_digits. constructor; [discriminate|now apply all_digits_iff].
  - intros (p & x & k0 & e & -> & P & X & ->). assert (HX : forall c q, x = c :: q -> is_digit c = false) by (intros c q E; now apply (exp_head x e c q)).
    destruct P as [d N D|i f N D].
    + rewrite span_digits_app by (now apply all_digits_iff || assumption). destruct x as [|c r].
      * rewrite app_nil_r. destruct d as [|d0 d]; [congruence|]. inversion X; subst. cbn [parse_exp length]. now rewrite value_digits.
      * destruct (exp_head _ _ c r X eq_refl) as [_ C]. destruct (Z.eqb_spec c 46); [contradiction|]. rewrite app_nil_r. destruct d as [|d0 d]; [congruence|].
        apply parse_exp_spec in X. rewrite X. cbn [length]. rewrite value_digits. do 2 f_equal. lia.
    + apply all_digits_app in D. destruct D as [Di Df]. rewrite <- app_assoc. cbn [app]. rewrite span_digits_app; [|now apply all_digits_iff|now intros c q [= <- _]].
      rewrite Z.eqb_refl. rewrite span_digits_app by (now apply all_digits_iff || assumption). destruct (i ++ f) as [|d0 ds] eqn:Ed; [congruence|]. rewrite <- Ed.
      apply parse_exp_spec in X. rewrite X. rewrite value_digits, Ed. do 2 f_equal. lia.
Qed.
Lemma point_nonempty p m k : point_text p m k -> exists c r, p = c :: r /\ (digit c \/ c = 46).
Proof.
  intros [d N D|i f N D].
  - destruct d as [|c d]; [congruence|]. exists c, d. split; [reflexivity|]. left. apply D. now left.
  - destruct i as [|c i]; [exists 46, f; auto|]. exists c, (i ++ 46 :: f). split; [reflexivity|]. left. apply D. now left.
Qed.

(** ** words *)
Lemma lower_same x w : (forall c, In c w -> 97 <= c <= 122) -> map lower x = w <-> same_letters x w.
Proof.
  unfold same_letters. revert w. induction x as [|c x IH]; intros w W.
  - split; [intros <-; constructor|intros H; inversion H; reflexivity].
  - split.
    + intros <-. cbn [map]. constructor.
      * unfold lower in *. destruct ((65 <=? c) && (c <=? 90)); auto.
      * apply IH; [|reflexivity]. intros d Hd. apply W. now right.
    + intros H. inversion H as [|c0 d0 x0 w0 E Hw]; subst. cbn [map]. f_equal.
      * specialize (W d0 (or_introl eq_refl)). unfold lower. destruct E as [-> | <-].
        -- destruct (Z.leb_spec 65 d0), (Z.leb_spec d0 90); cbn [andb]; lia.
        -- destruct (Z.leb_spec 65 c), (Z.leb_spec c 90); cbn [andb]; lia.
      * apply IH; [intros d Hd; apply W; now right|assumption].
Qed.
Lemma str_eqb_eq a b : str_eqb a b = true <-> a = b.
Proof. unfold str_eqb. destruct (list_eq_dec Z.eq_dec a b); split; congruence. Qed.
Lemma inf_spec x : str_eqb (map lower x) s_inf || str_eqb (map lower x) s_infinity = true <-> word_inf x.
Proof.
  rewrite orb_true_iff, !str_eqb_eq. unfold word_inf. rewrite !lower_same; [reflexivity| |]; cbn; intros c H; repeat destruct H as [<-|H]; lia || contradiction.
Qed.
Lemma nan_spec x : str_eqb (map lower x) s_nan = true <-> word_nan x.
Proof. rewrite str_eqb_eq. unfold word_nan. rewrite lower_same; [reflexivity|]. cbn; intros c H; repeat destruct H as [<-|H]; lia || contradiction. Qed.
Lemma word_visible x : word_inf x \/ word_nan x -> visible x /\ exists c r, x = c :: r /\ 65 <= c.
Proof.
  assert (G : forall w, (forall d, In d w -> 97 <= d <= 122) -> w <> [] -> same_letters x w -> visible x /\ exists c r, x = c :: r /\ 65 <= c).
  { intros w W N S. split.
    - clear N. induction S as [|c d x w E _ IH]; [intros c []|]. apply visible_cons; [|apply IH; intros e He; apply W; now right].
      specialize (W d (or_introl eq_refl)). apply not_ws. lia.
    - destruct S as [|c d x w E S]; [congruence|]. exists c, x. split; [reflexivity|]. specialize (W d (or_introl eq_refl)). lia. }
  intros [[S|S]|S]; (refine (G _ _ _ S); [|discriminate]); cbn; intros c H; repeat destruct H as [<-|H]; lia || contradiction.
Qed.

Section Float.
Context {F : Type} {FO : FloatOps F}.
Definition fsigned (neg : bool) (x : F) : F := if neg then fneg x else x.
(** what a float text means *)
Inductive float_value : str -> F -> Prop :=
| fv_number y neg m k : number_text y neg m k -> float_value y (fsigned neg (flit m k))
| fv_inf sg neg w : sign_text sg neg -> word_inf w -> float_value (sg ++ w) (fsigned neg finf)
| fv_nan sg neg w : sign_text sg neg -> word_nan w -> float_value (sg ++ w) (fsigned neg fnan).

Lemma no_decimal_word w : word_inf w \/ word_nan w -> parse_decimal w = None.
Proof.
  intros W. destruct (word_visible w W) as (_ & c & r & -> & C). destruct (parse_decimal (c :: r)) as [[m k]|] eqn:E; [|reflexivity].
  apply parse_decimal_spec in E. destruct E as (p & x & k0 & e & E & P & _). destruct (point_nonempty _ _ _ P) as (c0 & r0 & -> & D).
  injection E as -> _. unfold digit in D. lia.
Qed.
Lemma unsigned_spec s v : parse_f64_unsigned s = Some v <->
  (exists m k, parse_decimal s = Some (m, k) /\ v = flit m k) \/ (word_inf s /\ v = finf) \/ (word_nan s /\ v = fnan).
Proof.
  unfold parse_f64_unsigned. split.
  - destruct (parse_decimal s) as [[m k]|] eqn:E.
    + intros [= <-]. left. now exists m, k.
    + cbv zeta. destruct (_ || _) eqn:I.
      * intros [= <-]. right. left. split; [now apply inf_spec|reflexivity].
      * destruct (str_eqb _ s_nan) eqn:N; [|discriminate]. intros [= <-]. right. right. split; [now apply nan_spec|reflexivity].
  - intros [(m & k & -> & ->)|[[I ->]|[N ->]]]; [reflexivity| |].
    + rewrite no_decimal_word by now left. cbv zeta. apply inf_spec in I. now rewrite I.
    + rewrite no_decimal_word by now right. cbv zeta. destruct (_ || _) eqn:I.
      * exfalso. apply inf_spec in I. clear -I N. unfold word_nan, same_letters in N. destruct I as [I|I]; unfold same_letters in I.
        -- inversion N; subst. inversion I; subst. lia.
        -- inversion N; subst. inversion I; subst. lia.
      * apply nan_spec in N. now rewrite N.
Qed.
Lemma parse_f64_spec y v : parse_f64 y = Some v <-> float_value y v.
Proof.
  assert (G : forall sg neg s v0, sign_text sg neg -> parse_f64_unsigned s = Some v0 -> float_value (sg ++ s) (fsigned neg v0)).
  { intros sg neg s v0 S H. apply unsigned_spec in H. destruct H as [(m & k & H & ->)|[[I ->]|[N ->]]]; [|now constructor|now constructor].
    apply parse_decimal_spec in H. destruct H as (p & x & k0 & e & -> & P & X & ->). constructor. now constructor. }
  split.
  - destruct y as [|c r]; [discriminate|]. cbn [parse_f64]. destruct (Z.eqb_spec c 45) as [->|].
    + destruct (parse_f64_unsigned r) as [v0|] eqn:E; [|discriminate]. cbn [option_map]. intros [= <-]. apply (G [45] true); [constructor|exact E].
    + destruct (Z.eqb_spec c 43) as [->|]; intros E.
      * apply (G [43] false); [constructor|exact E].
      * apply (G [] false); [constructor|exact E].
  - assert (K : forall sg neg s v0, sign_text sg neg -> parse_f64_unsigned s = Some v0 -> (exists c r, s = c :: r /\ c <> 45 /\ c <> 43) -> parse_f64 (sg ++ s) = Some (fsigned neg v0)).
    { intros sg neg s v0 S E (c & r & -> & C1 & C2). destruct S; cbn [app parse_f64].
      - destruct (Z.eqb_spec c 45); [contradiction|]. destruct (Z.eqb_spec c 43); [contradiction|]. exact E.
      - cbn [Z.eqb]. exact E.
      - rewrite E. reflexivity. }
    intros [y0 neg m k [sg neg0 p m0 k0 x e S P X]|sg neg w S W|sg neg w S W].
    + apply K; [exact S| |].
      * apply unsigned_spec. left. exists m0, (k0 + e). split; [|reflexivity]. apply parse_decimal_spec. now exists p, x, k0, e.
      * destruct (point_nonempty _ _ _ P) as (c & r & -> & D). exists c, (r ++ x). unfold digit in D. repeat split; lia.
    + apply K; [exact S|apply unsigned_spec; tauto|]. destruct (word_visible w (or_introl W)) as (_ & c & r & -> & C). exists c, r. repeat split; lia.
    + apply K; [exact S|apply unsigned_spec; tauto|]. destruct (word_visible w (or_intror W)) as (_ & c & r & -> & C). exists c, r. repeat split; lia.
Qed.
Lemma float_value_visible y v : float_value y v -> visible y.
Proof.
  intros [y0 neg m k N|sg neg w S W|sg neg w S W]; [now apply (visible_number _ neg m k)| |]; (apply visible_app; [now apply (visible_sign _ neg)|]).
  - now apply (word_visible w (or_introl W)).
  - now apply (word_visible w (or_intror W)).
Qed.
Lemma parse_f64_trim x v : parse_f64 (trim x) = Some v <-> exists y, padded x y /\ float_value y v.
Proof.
  rewrite parse_f64_spec. split.
  - intros H. exists (trim x). split; [apply padded_of_trim|exact H].
  - intros (y & P & H). now rewrite (padded_trim x y P (float_value_visible y v H)).
Qed.
Lemma float_text_value x : float_text x <-> exists v, parse_f64 (FO := FO) (trim x) = Some v.
Proof.
  split.
  - intros (y & P & [(neg & m & k & N)|(sg & neg & w & -> & S & [W|W])]).
    + exists (fsigned neg (flit m k)). apply parse_f64_trim. exists y. split; [exact P|now constructor].
    + exists (fsigned neg finf). apply parse_f64_trim. exists (sg ++ w). split; [exact P|now constructor].
    + exists (fsigned neg fnan). apply parse_f64_trim. exists (sg ++ w). split; [exact P|now constructor].
  - intros (v & H). apply parse_f64_trim in H. destruct H as (y & P & H). exists y. split; [exact P|].
    destruct H as [y0 neg m k N|sg neg w S W|sg neg w S W]; [left; now exists neg, m, k|right|right]; exists sg, neg, w; auto.
Qed.
Lemma not_float_text x : ~ float_text x <-> parse_f64 (FO := FO) (trim x) = None.
Proof. rewrite float_text_value. destruct (parse_f64 (trim x)) as [v|]; split; [intros H; elim H; now exists v|discriminate|reflexivity|intros _ [v H]; discriminate]. Qed.
Lemma not_int_text x : (forall v, ~ int_text x v) <-> parse_i64 (trim x) = None.
Proof. split; [intros H; destruct (parse_i64 (trim x)) as [v|] eqn:E; [apply parse_i64_spec in E; now apply H in E|reflexivity]|intros H v K; apply parse_i64_spec in K; congruence]. Qed.
End Float.

(** ** printing integers *)
Lemma nat_digits_aux_spec f n acc : 0 <= n < 2 ^ Z.of_nat f -> (0 < f)%nat ->
  exists d, nat_digits_aux f n acc = d ++ acc /\ all_digits d /\ value d = n /\ d <> [] /\ (n <> 0 -> forall c r, d = c :: r -> c <> 48) /\ (n = 0 -> d = [48]).
Proof.
  revert n acc. induction f as [|f IH]; intros n acc H P; [lia|]. cbn [nat_digits_aux]. destruct (Z.ltb_spec n 10) as [Z|Z].
  - exists [48 + n]. refine (conj eq_refl (conj _ (conj _ (conj _ (conj _ _))))).
    + intros c [<-|[]]. unfold digit. lia.
    + cbn [value length Z.of_nat]. change (10 ^ 0) with 1. lia.
    + discriminate.
    + intros N c r E. assert (48 + n = c) by congruence. lia.
    + intros ->. reflexivity.
  - assert (Hf : (0 < f)%nat) by (destruct f; [cbn in H; lia|lia]).
    assert (Q : 0 <= n / 10 < 2 ^ Z.of_nat f).
    { split; [apply Z.div_pos; lia|]. apply Z.div_lt_upper_bound; [lia|]. rewrite Nat2Z.inj_succ, Z.pow_succ_r in H by lia. lia. }
    destruct (IH (n / 10) ((48 + n mod 10) :: acc) Q Hf) as (d & E & D & V & N & L & _). exists (d ++ [48 + n mod 10]). rewrite E, <- app_assoc.
    pose proof (Z.mod_pos_bound n 10). pose proof (Z.div_mod n 10). refine (conj eq_refl (conj _ (conj _ (conj _ (conj _ _))))).
    + apply all_digits_app. split; [exact D|]. intros c [<-|[]]. unfold digit. lia.
    + rewrite value_digits, digits_val_app, <- !value_digits, V. cbn [value length Z.of_nat]. change (10 ^ 0) with 1. change (10 ^ Z.of_nat 1) with 10. lia.
    + destruct d; discriminate.
    + intros _ c r Er. destruct d as [|d0 d]; [congruence|]. injection Er as -> _. apply (L ltac:(pose proof (Z.div_le_lower_bound n 10 1); lia) c d eq_refl).
    + intros ->. lia.
Qed.
Lemma nat_digits_spec n : 0 <= n -> all_digits (nat_digits n) /\ value (nat_digits n) = n /\ nat_digits n <> [] /\
  (n <> 0 -> forall c r, nat_digits n = c :: r -> c <> 48) /\ (n = 0 -> nat_digits n = [48]).
Proof.
  intros H. unfold nat_digits. destruct (nat_digits_aux_spec (S (Z.to_nat (Z.log2 n))) n []) as (d & E & D); [|lia|].
  - split; [exact H|]. rewrite Nat2Z.inj_succ, Z2Nat.id by apply Z.log2_nonneg. destruct (Z.eq_dec n 0) as [->|]; [reflexivity|]. apply Z.log2_spec. lia.
  - rewrite E, app_nil_r. exact D.
Qed.
(** a digit string is its leading zeros followed by the printed value *)
Lemma value_bounds d : all_digits d -> 0 <= value d < 10 ^ Z.of_nat (length d).
Proof. intros D. rewrite value_digits. apply digits_val_range. now apply all_digits_iff. Qed.
Lemma value_lower c d : all_digits (c :: d) -> c <> 48 -> 10 ^ Z.of_nat (length d) <= value (c :: d).
Proof.
  intros D C. apply all_digits_cons in D. destruct D as [D0 D]. unfold digit in D0. cbn [value]. pose proof (value_bounds d D). nia.
Qed.
Lemma same_value_same_text a b : all_digits a -> all_digits b -> length a = length b -> value a = value b -> a = b.
Proof.
  revert b. induction a as [|x a IH]; intros [|y b] A B E V; cbn in E; try lia; [reflexivity|].
  apply all_digits_cons in A. apply all_digits_cons in B. destruct A as [X A], B as [Y B]. unfold digit in *. injection E as E.
  pose proof (value_bounds a A). pose proof (value_bounds b B). cbn [value] in V. rewrite E in *.
  set (p := 10 ^ Z.of_nat (length b)) in *. assert (x = y) by nia. subst y. f_equal. apply IH; [assumption|assumption|reflexivity|lia].
Qed.
Lemma no_zero_same a b : all_digits a -> all_digits b -> (forall c r, a = c :: r -> c <> 48) -> (forall c r, b = c :: r -> c <> 48) ->
  value a = value b -> a = b.
Proof.
  assert (L : forall a b, all_digits a -> all_digits b -> (forall c r, b = c :: r -> c <> 48) -> value a = value b -> (length b <= length a)%nat).
  { clear. intros a b A B Z V. destruct (Nat.le_gt_cases (length b) (length a)) as [H|H]; [exact H|exfalso]. destruct b as [|c b]; [cbn in H; lia|].
    pose proof (value_lower c b B (Z c b eq_refl)) as Lo. pose proof (value_bounds a A) as [_ Hi].
    assert (10 ^ Z.of_nat (length a) <= 10 ^ Z.of_nat (length b)) by (apply Z.pow_le_mono_r; cbn in H; lia). lia. }
  intros A B Za Zb V. pose proof (L a b A B Zb V). pose proof (L b a B A Za (eq_sym V)). apply same_value_same_text; try assumption. lia.
Qed.
Lemma printed_value d c r : all_digits (c :: r) -> c <> 48 -> value d = value (c :: r) -> nat_digits (value d) = c :: r.
Proof.
  intros D C V. pose proof (value_bounds _ D) as Bd. pose proof (value_lower c r D C) as Lo. assert (0 < 10 ^ Z.of_nat (length r)) by (apply Z.pow_pos_nonneg; lia).
  rewrite V. destruct (nat_digits_spec (value (c :: r))) as (A & E & N & Z & _); [lia|]. apply no_zero_same; try assumption.
  - apply Z. lia.
  - intros c0 r0 [= <- _]. exact C.
Qed.
Lemma value_zeros z d : value (repeat 48 z ++ d) = value d.
Proof. rewrite !value_digits, digits_val_app, <- value_digits. replace (value (repeat 48 z)) with 0; [lia|]. induction z as [|z IH]; [reflexivity|]. cbn [repeat value]. rewrite <- IH. lia. Qed.
Lemma zeros_split d : exists z e, d = repeat 48 z ++ e /\ (forall c r, e = c :: r -> c <> 48).
Proof.
  induction d as [|c d (z & e & -> & H)]; [exists 0%nat, []; split; [reflexivity|discriminate]|].
  destruct (Z.eq_dec c 48) as [->|N]; [now exists (S z), e|]. exists 0%nat, (c :: repeat 48 z ++ e). split; [reflexivity|]. now intros c0 r [= <- _].
Qed.
