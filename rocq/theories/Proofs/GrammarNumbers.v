(** Numbers and types of the grammar. *)
From Coq Require Import String.
From Verif.Base Require Import Prelude Bits.
From Verif.Model Require Import Types Float Slcan Parser.
From Verif.Spec Require Import ParserSpec GrammarSpec.
From Verif.Proofs Require Import ParserText ParserFacts.
Open Scope list_scope.
Open Scope N_scope.

Lemma hex_value_digit c d : hex_value c = Some d <-> digit_of 16 c d.
Proof.
  unfold hex_value, digit_of.
  destruct ((48 <=? c) && (c <=? 57)) eqn:E1; [split; [intros [= <-]; lia|intros H; f_equal; lia]|].
  destruct ((65 <=? c) && (c <=? 70)) eqn:E2; [split; [intros [= <-]; lia|intros H; f_equal; lia]|].
  destruct ((97 <=? c) && (c <=? 102)) eqn:E3; [split; [intros [= <-]; lia|intros H; f_equal; lia]|].
  split; [discriminate|lia].
Qed.
Lemma digit_value_digit base c d : base <= 16 -> digit_value base c = Some d <-> digit_of base c d.
Proof.
  intros Hb. unfold digit_value. pose proof (hex_value_digit c) as H. unfold digit_of in *.
  destruct (hex_value c) as [e|].
  - destruct (proj1 (H e) eq_refl) as (He & Hc). destruct (e <? base) eqn:E.
    + split; [intros [= <-]; lia|]. intros (H1 & H2). f_equal.
      assert (E2 : Some e = Some d) by (apply H; lia). congruence.
    + split; [discriminate|]. intros (H1 & H2).
      assert (E2 : Some e = Some d) by (apply H; lia). injection E2 as ->. lia.
  - split; [discriminate|]. intros (H1 & H2). assert (None = Some d) by (apply H; lia). discriminate.
Qed.
Lemma underscore_digit base d : ~ digit_of base underscore d.
Proof. unfold digit_of, underscore. lia. Qed.

Lemma scan_both base s : base <= 16 -> forall acc v,
  (scan_int base s acc true = Some v <-> more base acc s v) /\
  (scan_int base s acc false = Some v <->
   exists c d r, s = c :: r /\ digit_of base c d /\ more base (base * acc + d) r v).
Proof.
  intros Hb. induction s as [|c s IH]; intros acc v.
  - cbn [scan_int]. split.
    + split; [intros [= <-]; constructor|]. intros H. inversion H. reflexivity.
    + split; [discriminate|]. intros (c & d & r & E & _). discriminate.
  - cbn [scan_int]. destruct (c =? 95) eqn:E.
    + apply N.eqb_eq in E. subst c. split.
      * rewrite (proj2 (IH acc v)). split.
        -- intros (c & d & r & -> & Hd & Hm). econstructor; eassumption.
        -- intros H. inversion H; subst; [exfalso; eapply underscore_digit; eassumption|]. eauto 7.
      * split; [discriminate|]. intros (c & d & r & Ec & Hd & _). injection Ec as <- _.
        exfalso. eapply underscore_digit; eassumption.
    + apply N.eqb_neq in E. destruct (digit_value base c) as [d|] eqn:Ed.
      * apply digit_value_digit in Ed; [|exact Hb].
        assert (Hu : forall d', digit_of base c d' -> d' = d).
        { intros d' H. apply digit_value_digit in H; [|exact Hb]. apply digit_value_digit in Ed; [|exact Hb]. congruence. }
        rewrite (proj1 (IH (base * acc + d) v)). split; split.
        -- intros H. econstructor; eassumption.
        -- intros H. inversion H as [|? ? d' ? ? Hd' Hm|]; subst; [rewrite <- (Hu _ Hd'); exact Hm|].
           exfalso. apply E. reflexivity.
        -- intros H. eauto 7.
        -- intros (c' & d' & r & Ec & Hd & Hm). injection Ec as <- <-. rewrite <- (Hu _ Hd). exact Hm.
      * assert (Hn : forall d', ~ digit_of base c d').
        { intros d' H. apply digit_value_digit in H; [|exact Hb]. congruence. }
        split; (split; [discriminate|]).
        -- intros H. inversion H; subst; [exfalso; eapply Hn; eassumption|]. exfalso. apply E. reflexivity.
        -- intros (c' & d' & r & Ec & Hd & _). injection Ec as <- _. exfalso. eapply Hn; eassumption.
Qed.
Lemma scan_digits base s v : base <= 16 -> scan_int base s 0 false = Some v <-> digits base s v.
Proof.
  intros Hb. rewrite (proj2 (scan_both base s Hb 0 v)). unfold digits.
  split; intros (c & d & r & A & B & C); exists c, d, r;
    [rewrite N.mul_0_r, N.add_0_l in C|rewrite N.mul_0_r, N.add_0_l]; auto.
Qed.

(** [after_prefix] takes away an underscore. *)
Lemma prefix_digits base r v : base <= 16 -> scan_int base (after_prefix r) 0 false = Some v <->
  exists g r', r = g ++ r' /\ (g = [] \/ g = [underscore]) /\ digits base r' v.
Proof.
  intros Hb. rewrite (scan_digits base _ v Hb).
  assert (Hc : (exists r', r = underscore :: r' /\ after_prefix r = r') \/
               (after_prefix r = r /\ forall r', r <> underscore :: r')).
  { unfold underscore. destruct r as [|c r]; [right; split; [reflexivity|discriminate]|].
    destruct (N.eq_dec c 95) as [-> |Hn]; [left; eauto|]. right. split.
    - unfold after_prefix. destruct c as [|c]; [reflexivity|]. do 7 (destruct c as [c|c|]; try reflexivity); congruence.
    - intros r' E. congruence. }
  destruct Hc as [(r' & -> & ->)|(-> & Hn)].
  - split.
    + intros H. exists [underscore], r'. auto.
    + intros (g & r2 & E & [-> | ->] & H).
      * cbn in E. subst r2. destruct H as (c & d & r3 & Ec & Hd & _). injection Ec as <- _.
        exfalso. eapply underscore_digit; eassumption.
      * cbn in E. injection E as ->. exact H.
  - split.
    + intros H. exists [], r. auto.
    + intros (g & r2 & E & [-> | ->] & H); [cbn in E; subst r2; exact H|]. exfalso. exact (Hn _ E).
Qed.

Lemma digits_prefix_char s v x r : digits 10 s v -> s = 48 :: x :: r ->
  (48 <= x <= 57) \/ x = 95.
Proof.
  intros (c & d & r' & E & _ & Hm) ->. injection E as <- <-.
  inversion Hm; subst; unfold digit_of, underscore in *; lia.
Qed.

Lemma unsigned_magnitude s v : unsigned_int 0 s = Some v <-> magnitude s v.
Proof.
  assert (Hb : forall b : N, b = 16 \/ b = 8 \/ b = 2 -> b <= 16) by lia.
  assert (Hother : (forall x r, s <> 48 :: x :: r) ->
            scan_int 10 s 0 false = Some v <-> magnitude s v).
  { intros Hn. rewrite (scan_digits 10 s v ltac:(lia)). unfold magnitude, prefixed. split.
    - intros H. left. split; [exact H|]. destruct s as [|c [|x r]].
      + right. discriminate.
      + destruct (N.eq_dec c 48) as [-> |Hc]; [|right; congruence]. left.
        destruct H as (c & d & r & E & Hd & Hm). injection E as <- <-. inversion Hm; subst. unfold digit_of in Hd. lia.
      + destruct (N.eq_dec c 48) as [-> |Hc]; [exfalso; eapply Hn; reflexivity|]. right. congruence.
    - intros [(H & _)|[H|[H|H]]]; [exact H| | |]; destruct H as (x & g & r & E & _); exfalso; eapply Hn; exact E. }
  unfold unsigned_int. cbn [N.eqb].
  destruct s as [|c0 [|x r]]; [apply Hother; discriminate|..].
  { destruct (N.eq_dec c0 48) as [-> |Hc]; [apply Hother; discriminate|].
    destruct c0 as [|c]; [apply Hother; discriminate|].
    do 6 (destruct c as [c|c|]; try (apply Hother; discriminate)); congruence. }
  destruct (N.eq_dec c0 48) as [-> |Hc].
  2:{ assert (Hn : forall x' r', c0 :: x :: r <> 48 :: x' :: r') by congruence. specialize (Hother Hn).
      destruct c0 as [|c]; [exact Hother|].
      do 6 (destruct c as [c|c|]; try exact Hother); congruence. }
  assert (Hd10 : digits 10 (48 :: x :: r) v -> (48 <= x <= 57) \/ x = 95).
  { intros H. eapply digits_prefix_char; [exact H|reflexivity]. }
  assert (Hpre : forall base lo hi, base <= 16 -> (x = lo \/ x = hi) ->
            scan_int base (after_prefix r) 0 false = Some v <-> prefixed base lo hi (48 :: x :: r) v).
  { intros base lo hi Hbase Hx. rewrite (prefix_digits base r v Hbase). unfold prefixed. split.
    - intros (g & r' & -> & Hg & H). exists x, g, r'. auto.
    - intros (x' & g & r' & E & _ & Hg & H). injection E as <- ->. eauto. }
  assert (Hno : forall base lo hi, (x <> lo /\ x <> hi) -> ~ prefixed base lo hi (48 :: x :: r) v).
  { intros base lo hi Hx (x' & g & r' & E & Hx' & _). injection E as <- _. lia. }
  unfold magnitude. destruct ((x =? 120) || (x =? 88)) eqn:E1.
  { rewrite (Hpre 16 120 88) by lia. pose proof (Hno 8 111 79 ltac:(lia)). pose proof (Hno 2 98 66 ltac:(lia)).
    split; [auto|]. intros [(H1 & _)|[H1|[H1|H1]]]; try contradiction; [apply Hd10 in H1; lia|exact H1]. }
  destruct ((x =? 111) || (x =? 79)) eqn:E2.
  { rewrite (Hpre 8 111 79) by lia. pose proof (Hno 16 120 88 ltac:(lia)). pose proof (Hno 2 98 66 ltac:(lia)).
    split; [auto|]. intros [(H1 & _)|[H1|[H1|H1]]]; try contradiction; [apply Hd10 in H1; lia|exact H1]. }
  destruct ((x =? 98) || (x =? 66)) eqn:E3.
  { rewrite (Hpre 2 98 66) by lia. pose proof (Hno 16 120 88 ltac:(lia)). pose proof (Hno 8 111 79 ltac:(lia)).
    split; [auto|]. intros [(H1 & _)|[H1|[H1|H1]]]; try contradiction; [apply Hd10 in H1; lia|exact H1]. }
  pose proof (Hno 16 120 88 ltac:(lia)). pose proof (Hno 8 111 79 ltac:(lia)). pose proof (Hno 2 98 66 ltac:(lia)).
  split.
  - intros H2. left. destruct (scan_int 10 (48 :: x :: r) 0 false) as [[|p]|] eqn:E; try discriminate.
    injection H2 as <-. apply scan_digits in E; [|lia]. auto.
  - intros [(H2 & H3)|[H2|[H2|H2]]]; try contradiction. apply scan_digits in H2; [|lia]. rewrite H2.
    destruct H3 as [-> |H3]; [reflexivity|]. exfalso. eapply H3. reflexivity.
Qed.

(** ** Signs *)
Lemma drop_while_id {A} (p : A -> bool) l : Forall (fun c => p c = false) l -> drop_while p l = l.
Proof. intros H. destruct H as [|x l Hx H]; [reflexivity|]. cbn [drop_while]. rewrite Hx. reflexivity. Qed.
Lemma strip_id p l : Forall (fun c => p c = false) l -> strip p l = l.
Proof.
  intros H. unfold strip. rewrite (drop_while_id p l H). rewrite drop_while_id by (apply Forall_rev; exact H).
  apply rev_involutive.
Qed.

Definition sign_split (s : text) : bool * text :=
  match s with 43 :: r => (false, r) | 45 :: r => (true, r) | _ => (false, s) end.
Lemma sign_split_spec s :
  (exists r, s = 43 :: r /\ sign_split s = (false, r)) \/ (exists r, s = 45 :: r /\ sign_split s = (true, r)) \/
  (sign_split s = (false, s) /\ forall r, s <> 43 :: r /\ s <> 45 :: r).
Proof.
  destruct s as [|c s]; [right; right; split; [reflexivity|split; discriminate]|].
  destruct (N.eq_dec c 43) as [-> |H1]; [left; eauto|]. destruct (N.eq_dec c 45) as [-> |H2]; [right; left; eauto|].
  right. right. split; [|split; congruence]. unfold sign_split.
  destruct c as [|c]; [reflexivity|]. do 6 (destruct c as [c|c|]; try reflexivity); congruence.
Qed.
Lemma signed_iff (f : text -> option N) (U : text -> N -> Prop) s z :
  (forall s v, f s = Some v <-> U s v) -> (forall r v, ~ U (43 :: r) v) -> (forall r v, ~ U (45 :: r) v) ->
  (let '(neg, s) := sign_split s in
   match f s with Some n => Ok (if neg then - Z.of_N n else Z.of_N n)%Z | None => Err ValueError end) = Ok z <->
  signed U s z.
Proof.
  intros Hf H43 H45. unfold signed.
  destruct (sign_split_spec s) as [(r & -> & ->)|[(r & -> & ->)|(-> & Hn)]].
  - split.
    + intros H. destruct (f r) as [v|] eqn:E; [|discriminate]. injection H as <-. apply Hf in E. eauto 7.
    + intros (v & [(H & _)|[(r' & E & H & ->)|(r' & E & _)]]); [exfalso; eapply H43; eassumption| |discriminate].
      injection E as <-. apply Hf in H. rewrite H. reflexivity.
  - split.
    + intros H. destruct (f r) as [v|] eqn:E; [|discriminate]. injection H as <-. apply Hf in E. eauto 7.
    + intros (v & [(H & _)|[(r' & E & _)|(r' & E & H & ->)]]); [exfalso; eapply H45; eassumption|discriminate|].
      injection E as <-. apply Hf in H. rewrite H. reflexivity.
  - split.
    + intros H. destruct (f s) as [v|] eqn:E; [|discriminate]. injection H as <-. apply Hf in E. eauto.
    + intros (v & [(H & ->)|[(r & E & _)|(r & E & _)]]);
        [apply Hf in H; rewrite H; reflexivity|exfalso; exact (proj1 (Hn r) E)|exfalso; exact (proj2 (Hn r) E)].
Qed.

Lemma digits_first base s v : digits base s v -> exists c r, s = c :: r /\ c <> 43 /\ c <> 45.
Proof.
  intros (c & d & r & -> & Hd & _). exists c, r. split; [reflexivity|]. unfold digit_of in Hd. lia.
Qed.
Lemma magnitude_first s v : magnitude s v -> exists c r, s = c :: r /\ c <> 43 /\ c <> 45.
Proof.
  intros [(H & _)|[H|[H|H]]]; [exact (digits_first _ _ _ H)|..];
    destruct H as (x & g & r & -> & _); (eexists _, _; split; [reflexivity|split; discriminate]).
Qed.

Lemma py_int_integer s z : Forall (fun c => is_ws c = false) s -> py_int 0 s = Ok z <-> integer s z.
Proof.
  intros Hw. unfold py_int, integer. rewrite (strip_id _ _ Hw).
  apply (signed_iff (unsigned_int 0) magnitude s z).
  - exact unsigned_magnitude.
  - intros r v H. destruct (magnitude_first _ _ H) as (c & r' & E & H1 & _). congruence.
  - intros r v H. destruct (magnitude_first _ _ H) as (c & r' & E & _ & H1). congruence.
Qed.

(** ** Hexadecimal numbers *)
Lemma hex_digit_digit c d : digit_of 16 c d <-> hex_value c = Some d.
Proof. symmetry. apply hex_value_digit. Qed.
Definition no_space (s : text) : Prop := Forall (fun c => is_space c = false) s.
Lemma ws_space s : Forall (fun c => is_ws c = false) s -> no_space s.
Proof. intros H. eapply Forall_impl; [|exact H]. intros c Hc. cbv beta in Hc. unfold is_ws in Hc. unfold is_space. lia. Qed.

Lemma scan_hex_both s : no_space s -> forall acc v,
  ((exists rest, scan_hex s acc true = Some (v, rest) /\ forallb is_space rest = true) <-> more 16 acc s v) /\
  ((exists rest, scan_hex s acc false = Some (v, rest) /\ forallb is_space rest = true) <->
   exists c d r, s = c :: r /\ digit_of 16 c d /\ more 16 (16 * acc + d) r v).
Proof.
  intros H. induction H as [|c s Hc H IH]; intros acc v.
  - cbn [scan_hex]. split.
    + split; [intros (r & [= <- <-] & _); constructor|]. intros Hm. inversion Hm; subst. eauto.
    + split; [intros (r & E & _); discriminate|]. intros (c & d & r & E & _). discriminate.
  - cbn [scan_hex]. destruct (c =? 95) eqn:E.
    + apply N.eqb_eq in E. subst c. split.
      * rewrite (proj2 (IH acc v)). split.
        -- intros (c & d & r & -> & Hd & Hm). econstructor; eassumption.
        -- intros Hm. inversion Hm; subst; [exfalso; eapply underscore_digit; eassumption|]. eauto 7.
      * split; [intros (r & E & _); discriminate|]. intros (c & d & r & Ec & Hd & _). injection Ec as <- _.
        exfalso. eapply underscore_digit; eassumption.
    + apply N.eqb_neq in E. destruct (hex_value c) as [d|] eqn:Ed.
      * assert (Hu : forall d', digit_of 16 c d' -> d' = d).
        { intros d' H'. apply hex_value_digit in H'. congruence. }
        apply hex_value_digit in Ed. rewrite (proj1 (IH (16 * acc + d) v)). split; split.
        -- intros Hm. econstructor; eassumption.
        -- intros Hm. inversion Hm as [|? ? d' ? ? Hd' Hm'|]; subst; [rewrite <- (Hu _ Hd'); exact Hm'|].
           exfalso. apply E. reflexivity.
        -- intros Hm. eauto 7.
        -- intros (c' & d' & r & Ec & Hd & Hm). injection Ec as <- <-. rewrite <- (Hu _ Hd). exact Hm.
      * assert (Hn : forall d', ~ digit_of 16 c d').
        { intros d' H'. apply hex_value_digit in H'. congruence. }
        split; (split; [|]).
        -- intros (r & [= <- <-] & Hs). cbn [forallb] in Hs. rewrite Hc in Hs. discriminate.
        -- intros Hm. inversion Hm; subst; [exfalso; eapply Hn; eassumption|]. exfalso. apply E. reflexivity.
        -- intros (r & E' & _). discriminate.
        -- intros (c' & d' & r & Ec & Hd & _). injection Ec as <- _. exfalso. eapply Hn; eassumption.
Qed.
Definition scan16 (s : text) : option N :=
  match scan_hex s 0 false with Some (n, rest) => if forallb is_space rest then Some n else None | None => None end.
Lemma scan16_digits s v : no_space s -> scan16 s = Some v <-> digits 16 s v.
Proof.
  intros Hs. pose proof (proj2 (scan_hex_both s Hs 0 v)) as H. unfold scan16, digits.
  rewrite N.mul_0_r in H. split.
  - intros E. apply H. destruct (scan_hex s 0 false) as [(n & rest)|]; [|discriminate].
    destruct (forallb is_space rest) eqn:Ef; [|discriminate]. injection E as <-. eauto.
  - intros E. apply H in E as (rest & -> & ->). reflexivity.
Qed.

Definition drop_0x (s : text) : text :=
  match s with
  | 48 :: x :: r => if (x =? 120) || (x =? 88) then match r with 95 :: r' => r' | _ => r end else s
  | _ => s
  end.
Lemma drop_0x_prefix x r : x = 120 \/ x = 88 -> drop_0x (48 :: x :: r) = after_prefix r.
Proof. intros H. unfold drop_0x. replace ((x =? 120) || (x =? 88)) with true by lia. reflexivity. Qed.
Lemma drop_0x_other s : (forall x r, s = 48 :: x :: r -> x <> 120 /\ x <> 88) -> drop_0x s = s.
Proof.
  intros H. unfold drop_0x. destruct s as [|c [|x r]]; [reflexivity| |].
  - destruct c as [|c]; [reflexivity|]. do 6 (destruct c as [c|c|]; try reflexivity).
  - destruct (N.eq_dec c 48) as [-> |Hc].
    + specialize (H x r eq_refl). replace ((x =? 120) || (x =? 88)) with false by lia. reflexivity.
    + destruct c as [|c]; [reflexivity|]. do 6 (destruct c as [c|c|]; try reflexivity); congruence.
Qed.
Lemma after_prefix_sub (Q : N -> Prop) r : Forall Q r -> Forall Q (after_prefix r).
Proof.
  intros H. unfold after_prefix. destruct H as [|c r Hc H]; [constructor|].
  destruct c as [|c]; [constructor; assumption|].
  do 7 (destruct c as [c|c|]; try (constructor; assumption)); assumption.
Qed.
Lemma hex_either s v : no_space s ->
  scan16 (drop_0x s) = Some v <-> digits 16 s v \/ prefixed 16 120 88 s v.
Proof.
  intros Hs.
  assert (Hc : (exists x r, s = 48 :: x :: r /\ (x = 120 \/ x = 88)) \/
               (forall x r, s = 48 :: x :: r -> x <> 120 /\ x <> 88)).
  { destruct s as [|c [|x r]]; try (right; discriminate).
    destruct (N.eq_dec c 48) as [-> |Hc]; [|right; congruence].
    destruct (N.eq_dec x 120) as [-> |H1]; [left; eauto 6|].
    destruct (N.eq_dec x 88) as [-> |H2]; [left; eauto 6|]. right. intros x' r' [= <- <-]. auto. }
  destruct Hc as [(x & r & -> & Hx)|Hn].
  - rewrite drop_0x_prefix by exact Hx. apply Forall_inv_tail, Forall_inv_tail in Hs.
    rewrite (scan16_digits _ v (after_prefix_sub _ _ Hs)).
    rewrite <- (scan_digits 16 _ v ltac:(lia)), (prefix_digits 16 r v ltac:(lia)). unfold prefixed. split.
    + intros (g & r' & -> & Hg & H). right. exists x, g, r'. auto.
    + intros [H|(x' & g & r' & E & _ & Hg & H)].
      * exfalso. destruct H as (c & d & r' & E & _ & Hm). injection E as <- <-.
        inversion Hm; subst; unfold digit_of, underscore in *; lia.
      * injection E as <- ->. eauto.
  - rewrite drop_0x_other by exact Hn. rewrite (scan16_digits s v Hs). split; [auto|].
    intros [H|(x & g & r & E & Hx & _)]; [exact H|]. destruct (Hn _ _ E). lia.
Qed.
Lemma int16_hex s z : Forall (fun c => is_ws c = false) s -> int16 s = Ok z <-> hex_integer s z.
Proof.
  intros Hw. apply ws_space in Hw. unfold hex_integer.
  assert (E : int16 s = (let '(neg, s) := sign_split s in
     match scan16 (drop_0x s) with Some n => Ok (if neg then - Z.of_N n else Z.of_N n)%Z | None => Err ValueError end)).
  { transitivity (let '(neg, s) := sign_split (drop_while is_space s) in
      match scan_hex (drop_0x s) 0 false with
      | Some (n, rest) => if forallb is_space rest then Ok (if neg then - Z.of_N n else Z.of_N n)%Z else Err ValueError
      | None => Err ValueError
      end); [reflexivity|].
    rewrite (drop_while_id is_space s Hw). destruct (sign_split s) as (neg & s').
    unfold scan16. destruct (scan_hex (drop_0x s') 0 false) as [(n & rest)|]; [|reflexivity].
    destruct (forallb is_space rest); reflexivity. }
  rewrite E. clear E.
  assert (Hsub : no_space (snd (sign_split s))).
  { destruct (sign_split_spec s) as [(r & -> & E)|[(r & -> & E)|(E & _)]]; rewrite E; cbn [snd];
      [inversion Hw; assumption|inversion Hw; assumption|exact Hw]. }
  set (U := fun s v => digits 16 s v \/ prefixed 16 120 88 s v).
  assert (H1 : forall r v, ~ U (43 :: r) v).
  { intros r v [H|(x & g & r' & E & _)]; [|discriminate]. destruct (digits_first _ _ _ H) as (c & r' & E & ? & ?). congruence. }
  assert (H2 : forall r v, ~ U (45 :: r) v).
  { intros r v [H|(x & g & r' & E & _)]; [|discriminate]. destruct (digits_first _ _ _ H) as (c & r' & E & ? & ?). congruence. }
  unfold signed.
  destruct (sign_split_spec s) as [(r & -> & E)|[(r & -> & E)|(E & Hn)]]; rewrite E in *; cbn [snd] in Hsub.
  - split.
    + intros H. destruct (scan16 (drop_0x r)) as [v|] eqn:Ev; [|discriminate]. injection H as <-.
      apply hex_either in Ev; [|exact Hsub]. eauto 7.
    + intros (v & [(H & _)|[(r' & E' & H & ->)|(r' & E' & _)]]); [exfalso; eapply H1; exact H| |discriminate].
      injection E' as <-. apply hex_either in H; [|exact Hsub]. rewrite H. reflexivity.
  - split.
    + intros H. destruct (scan16 (drop_0x r)) as [v|] eqn:Ev; [|discriminate]. injection H as <-.
      apply hex_either in Ev; [|exact Hsub]. eauto 7.
    + intros (v & [(H & _)|[(r' & E' & _)|(r' & E' & H & ->)]]); [exfalso; eapply H2; exact H|discriminate|].
      injection E' as <-. apply hex_either in H; [|exact Hsub]. rewrite H. reflexivity.
  - split.
    + intros H. destruct (scan16 (drop_0x s)) as [v|] eqn:Ev; [|discriminate]. injection H as <-.
      apply hex_either in Ev; [|exact Hsub]. eauto.
    + intros (v & [(H & ->)|[(r & E' & _)|(r & E' & _)]]);
        [apply hex_either in H; [|exact Hsub]; rewrite H; reflexivity|exfalso; exact (proj1 (Hn r) E')|exfalso; exact (proj2 (Hn r) E')].
Qed.

(** ** One or two digits *)
Lemma small_number_spec s n : small_number s = Some n <-> small s n.
Proof.
  unfold small_number, small, is_digit. destruct s as [|a [|b [|c s]]].
  - split; [discriminate|]. intros [(a & _ & E & _)|(a & b & _ & _ & E & _)]; discriminate.
  - destruct ((48 <=? a) && (a <=? 57)) eqn:E.
    + split; [intros [= <-]; left; exists (a - 48); split; [lia|]; split; [f_equal; lia|reflexivity]|].
      intros [(a' & H & E' & ->)|(a' & b & _ & _ & E' & _)]; [|discriminate]. assert (a = 48 + a') by congruence; subst a. f_equal. lia.
    + split; [discriminate|]. intros [(a' & H & E' & ->)|(a' & b & _ & _ & E' & _)]; [|discriminate]. assert (a = 48 + a') by congruence; subst a. lia.
  - destruct ((48 <=? a) && (a <=? 57) && ((48 <=? b) && (b <=? 57))) eqn:E.
    + split.
      * intros [= <-]. right. exists (a - 48), (b - 48). split; [lia|]. split; [lia|].
        split; [repeat f_equal; lia|reflexivity].
      * intros [(a' & H & E' & ->)|(a' & b' & Ha & Hb & E' & ->)]; [discriminate|]. assert (a = 48 + a') by congruence; assert (b = 48 + b') by congruence; subst a b.
        f_equal. lia.
    + split; [discriminate|].
      intros [(a' & H & E' & ->)|(a' & b' & Ha & Hb & E' & ->)]; [discriminate|]. assert (a = 48 + a') by congruence; assert (b = 48 + b') by congruence; subst a b. lia.
  - split; [discriminate|]. intros [(a' & _ & E & _)|(a' & b' & _ & _ & E & _)]; discriminate.
Qed.
Lemma small_digits s n : small s n -> Forall (fun c => is_digit c = true) s /\ s <> [].
Proof.
  intros [(a & H & -> & _)|(a & b & H1 & H2 & -> & _)]; (split; [|discriminate]);
    repeat (constructor; [unfold is_digit; lia|]); constructor.
Qed.
