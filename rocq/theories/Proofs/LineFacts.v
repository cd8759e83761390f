(** The lines that are read as SLCAN frames. *)
From Verif.Base Require Import Prelude Bits.
From Verif.Model Require Import Types CanFrame Slcan Parser.
From Verif.Spec Require Import PacketSpec ParserSpec GrammarSpec SlcanSpec LineSpec.
From Verif.Proofs Require Import PacketFacts LogFacts SlcanFacts GrammarNumbers GrammarTypes PathFacts.
Open Scope list_scope.
Open Scope N_scope.

(** ** Stripping *)
Lemma white_space c : is_space c = true <-> white c.
Proof. unfold is_space, white. lia. Qed.
Lemma strip_solid p s : strip p s = [] \/ solid p (strip p s).
Proof.
  destruct (strip p s) as [|x r] eqn:E; [left; reflexivity|right]. unfold strip in E.
  set (t := drop_while p s) in *.
  assert (H : forall l : list N, drop_while p l = [] \/ exists y q, drop_while p l = y :: q /\ p y = false).
  { intros l. induction l as [|y l IH]; [left; reflexivity|]. cbn [drop_while]. destruct (p y) eqn:Y; [exact IH|right; eauto]. }
  split.
  - exists x, r. split; [reflexivity|].
    destruct (drop_while_parts p (rev t)) as (g & Eg & _).
    destruct (H s) as [Et|(y & q & Et & Hy)].
    + fold t in Et. rewrite Et in E. discriminate.
    + fold t in Et. assert (E2 : t = (x :: r) ++ rev g).
      { rewrite <- E, <- rev_app_distr, <- Eg, rev_involutive. reflexivity. }
      rewrite Et in E2. cbn [app] in E2. injection E2 as <- _. exact Hy.
  - destruct (H (rev t)) as [Et|(y & q & Et & Hy)]; rewrite Et in E; [discriminate|].
    cbn [rev] in E. exists y, (rev q). split; [symmetry; exact E|exact Hy].
Qed.
Lemma strip_peeled p (P : N -> Prop) s t : (forall c, p c = true <-> P c) -> strip p s = t <-> peeled P s t.
Proof.
  intros HP. assert (HN : forall c, p c = false <-> ~ P c).
  { intros c. specialize (HP c). destruct (p c); split; intros H; try discriminate; try reflexivity.
    - exfalso. apply H, HP. reflexivity.
    - intros X. apply HP in X. discriminate. }
  split.
  - intros <-. destruct (strip_parts p s) as (a & b & E & F). exists a, b. split; [exact E|]. split.
    + eapply Forall_impl; [|exact F]. intros c Hc. cbv beta in Hc. apply HP. exact Hc.
    + destruct (strip_solid p s) as [->|((x & r & E1 & H1) & (y & q & E2 & H2))]; [left; reflexivity|right]. split.
      * exists x, r. split; [exact E1|apply HN; exact H1].
      * exists q, y. split; [exact E2|apply HN; exact H2].
  - intros (a & b & -> & F & H). apply strip_around.
    + eapply Forall_impl; [|exact F]. intros c Hc. apply HP. exact Hc.
    + destruct H as [->|((x & r & E1 & H1) & (q & y & E2 & H2))]; [left; reflexivity|right]. split.
      * exists x, r. split; [exact E1|apply HN; exact H1].
      * exists y, q. split; [exact E2|apply HN; exact H2].
Qed.

(** ** Numbers *)
Lemma space_no_digit c : is_space c = true -> hex_value c = None /\ (c =? 95) = false.
Proof. unfold is_space. intros H. split; [unfold hex_value; dif; try reflexivity; lia|lia]. Qed.
Lemma scan_hex_tail b m : Forall (fun c => is_space c = true) b -> forall acc d,
  scan_hex (m ++ b) acc d = option_map (fun x => (fst x, snd x ++ b)) (scan_hex m acc d).
Proof.
  intros Hb. induction m as [|c m IH]; intros acc d; cbn [app scan_hex].
  - destruct Hb as [|c b Hc Hb]; cbn [scan_hex]; [destruct d; reflexivity|].
    destruct (space_no_digit c Hc) as (-> & ->). destruct d; reflexivity.
  - destruct (c =? 95); [destruct d; [apply IH|reflexivity]|]. destruct (hex_value c); [apply IH|destruct d; reflexivity].
Qed.
Lemma scan_hex_front s : forall acc d v rest, scan_hex s acc d = Some (v, rest) ->
  exists p, s = p ++ rest /\ Forall (fun c => is_space c = false) p.
Proof.
  assert (HS : forall c, hex_value c <> None \/ (c =? 95) = true -> is_space c = false).
  { intros c H. destruct (is_space c) eqn:E; [|reflexivity]. exfalso.
    destruct (space_no_digit c E) as (A & B). destruct H as [H|H]; congruence. }
  induction s as [|c s IH]; intros acc d v rest; cbn [scan_hex].
  - destruct d; [|discriminate]. intros [= _ <-]. exists []. split; [reflexivity|constructor].
  - destruct (c =? 95) eqn:Ec.
    + destruct d; [|discriminate]. intros H. destruct (IH _ _ _ _ H) as (p & -> & F). exists (c :: p).
      split; [reflexivity|]. constructor; [apply HS; auto|exact F].
    + destruct (hex_value c) as [x|] eqn:Ex.
      * intros H. destruct (IH _ _ _ _ H) as (p & -> & F). exists (c :: p).
        split; [reflexivity|]. constructor; [apply HS; left; congruence|exact F].
      * destruct d; [|discriminate]. intros [= _ <-]. exists []. split; [reflexivity|constructor].
Qed.
Lemma int16_steps s : int16 s = (let '(neg, s) := sign_split (drop_while is_space s) in
  match scan16 (drop_0x s) with Some n => Ok (if neg then - Z.of_N n else Z.of_N n)%Z | None => Err ValueError end).
Proof.
  transitivity (let '(neg, s) := sign_split (drop_while is_space s) in
      match scan_hex (drop_0x s) 0 false with
      | Some (n, rest) => if forallb is_space rest then Ok (if neg then - Z.of_N n else Z.of_N n)%Z else Err ValueError
      | None => Err ValueError
      end); [reflexivity|].
  destruct (sign_split (drop_while is_space s)) as (neg & s').
  unfold scan16. destruct (scan_hex (drop_0x s') 0 false) as [(n & rest)|]; [|reflexivity].
  destruct (forallb is_space rest); reflexivity.
Qed.
Lemma forallb_spaces b : Forall (fun c => is_space c = true) b -> forallb is_space b = true.
Proof. intros H. apply forallb_forall. apply Forall_forall. exact H. Qed.
Lemma scan16_tail m b : Forall (fun c => is_space c = true) b -> scan16 (m ++ b) = scan16 m.
Proof.
  intros Hb. unfold scan16. rewrite (scan_hex_tail b m Hb). destruct (scan_hex m 0 false) as [(v & r)|]; [|reflexivity].
  cbn [option_map fst snd]. rewrite forallb_app, (forallb_spaces b Hb), andb_true_r. reflexivity.
Qed.
Lemma drop_0x_tail m b : Forall (fun c => is_space c = true) b -> drop_0x (m ++ b) = drop_0x m ++ b.
Proof.
  intros Hb.
  assert (Hc : (exists x r, m = 48 :: x :: r /\ (x = 120 \/ x = 88)) \/ (forall x r, m = 48 :: x :: r -> x <> 120 /\ x <> 88)).
  { destruct m as [|c [|x r]]; try (right; discriminate).
    destruct (N.eq_dec c 48) as [-> |Hc]; [|right; congruence].
    destruct (N.eq_dec x 120) as [-> |H1]; [left; eauto 6|].
    destruct (N.eq_dec x 88) as [-> |H2]; [left; eauto 6|]. right. intros x' r' [= <- <-]. auto. }
  destruct Hc as [(x & r & -> & Hx)|Hn].
  - cbn [app]. rewrite !drop_0x_prefix by exact Hx. unfold after_prefix.
    destruct r as [|c r].
    + cbn [app]. destruct Hb as [|c b Hc Hb]; [reflexivity|]. apply space_no_digit in Hc as (_ & Hc).
      destruct c as [|c]; [reflexivity|]. do 7 (destruct c as [c|c|]; try reflexivity). discriminate.
    + cbn [app]. destruct c as [|c]; [reflexivity|]. do 7 (destruct c as [c|c|]; try reflexivity).
  - rewrite (drop_0x_other m Hn). apply drop_0x_other. intros x r E.
    destruct m as [|c [|x' m]]; cbn [app] in E.
    + subst b. apply Forall_inv in Hb. discriminate.
    + injection E as -> E. subst b. apply Forall_inv in Hb. split; intros ->; discriminate.
    + injection E as -> -> _. apply (Hn x m eq_refl).
Qed.
Lemma sign_split_tail m b : Forall (fun c => is_space c = true) b ->
  sign_split (m ++ b) = (fst (sign_split m), snd (sign_split m) ++ b).
Proof.
  intros Hb. destruct m as [|c m]; cbn [app].
  - change (sign_split []) with (false, @nil N). cbn [fst snd app].
    destruct (sign_split_spec b) as [(r & E & _)|[(r & E & _)|(E & _)]]; [subst b; apply Forall_inv in Hb; discriminate..|exact E].
  - destruct (N.eq_dec c 43) as [-> |H1]; [reflexivity|]. destruct (N.eq_dec c 45) as [-> |H2]; [reflexivity|].
    destruct (sign_split_spec (c :: m)) as [(r & E & _)|[(r & E & _)|(E & _)]]; [congruence..|]. rewrite E. cbn [fst snd app].
    destruct (sign_split_spec (c :: m ++ b)) as [(r & E' & _)|[(r & E' & _)|(E' & _)]]; [congruence..|]. exact E'.
Qed.
Lemma int16_around a m b : Forall (fun c => is_space c = true) (a ++ b) -> Forall (fun c => is_space c = false) m ->
  int16 (a ++ m ++ b) = int16 m.
Proof.
  intros H Hm. apply Forall_app in H as (Ha & Hb). rewrite !int16_steps, (drop_while_all is_space a _ Ha).
  rewrite (drop_while_id is_space m Hm).
  assert (E : sign_split (drop_while is_space (m ++ b)) = (fst (sign_split m), snd (sign_split m) ++ drop_while is_space b) \/
              drop_while is_space (m ++ b) = m ++ b).
  { destruct Hm as [|c m Hc Hm]; [left|right; cbn [app drop_while]; rewrite Hc; reflexivity].
    cbn [app]. assert (E : drop_while is_space b = []).
    { clear -Hb. induction Hb as [|c l Hc Hl IH]; [reflexivity|]. cbn [drop_while]. rewrite Hc. exact IH. }
    rewrite E. reflexivity. }
  destruct E as [E|E].
  - rewrite E. destruct (sign_split m) as (neg & s). cbn [fst snd].
    assert (Hb' : Forall (fun c => is_space c = true) (drop_while is_space b)).
    { clear -Hb. induction Hb as [|c l Hc Hl IH]; [constructor|]. cbn [drop_while]. rewrite Hc. exact IH. }
    rewrite (drop_0x_tail _ _ Hb'), (scan16_tail _ _ Hb'). reflexivity.
  - rewrite E, (sign_split_tail m b Hb). destruct (sign_split m) as (neg & s). cbn [fst snd].
    rewrite (drop_0x_tail _ _ Hb), (scan16_tail _ _ Hb). reflexivity.
Qed.
Lemma drop_0x_front s : exists g, s = g ++ drop_0x s /\ Forall (fun c => is_space c = false) g.
Proof.
  assert (Hc : (exists x r, s = 48 :: x :: r /\ (x = 120 \/ x = 88)) \/ (forall x r, s = 48 :: x :: r -> x <> 120 /\ x <> 88)).
  { destruct s as [|c [|x r]]; try (right; discriminate).
    destruct (N.eq_dec c 48) as [-> |Hc]; [|right; congruence].
    destruct (N.eq_dec x 120) as [-> |H1]; [left; eauto 6|].
    destruct (N.eq_dec x 88) as [-> |H2]; [left; eauto 6|]. right. intros x' r' [= <- <-]. auto. }
  destruct Hc as [(x & r & -> & Hx)|Hn].
  - rewrite drop_0x_prefix by exact Hx.
    assert (Hx' : is_space x = false) by (destruct Hx as [-> | ->]; reflexivity).
    assert (HA : after_prefix r = r \/ r = 95 :: after_prefix r).
    { unfold after_prefix. destruct r as [|c r]; [left; reflexivity|]. destruct c as [|c]; [left; reflexivity|].
      do 7 (destruct c as [c|c|]; try (left; reflexivity)). right. reflexivity. }
    destruct HA as [HA|HA].
    + rewrite HA. exists [48; x]. split; [reflexivity|]. constructor; [reflexivity|]. constructor; [exact Hx'|constructor].
    + exists [48; x; 95]. split; [cbn [app]; rewrite <- HA; reflexivity|].
      constructor; [reflexivity|]. constructor; [exact Hx'|]. constructor; [reflexivity|constructor].
  - rewrite (drop_0x_other s Hn). exists []. split; [reflexivity|constructor].
Qed.
Lemma sign_split_front s : exists g, s = g ++ snd (sign_split s) /\ Forall (fun c => is_space c = false) g.
Proof.
  destruct (sign_split_spec s) as [(r & -> & ->)|[(r & -> & ->)|(-> & _)]]; cbn [snd].
  - exists [43]. split; [reflexivity|]. constructor; [reflexivity|constructor].
  - exists [45]. split; [reflexivity|]. constructor; [reflexivity|constructor].
  - exists []. split; [reflexivity|constructor].
Qed.
(** [int(b, 16)] when there is no white space: the grammar's number. *)
Lemma int16_bare s z : Forall (fun c => is_space c = false) s -> int16 s = Ok z <-> hex_integer s z.
Proof.
  intros Hs. rewrite int16_steps, (drop_while_id is_space s Hs). unfold hex_integer, signed.
  set (U := fun s v => digits 16 s v \/ prefixed 16 120 88 s v).
  assert (H1 : forall r v, ~ U (43 :: r) v).
  { intros r v [H|(x & g & r' & E & _)]; [|discriminate]. destruct (digits_first _ _ _ H) as (c & r' & E & ? & ?). congruence. }
  assert (H2 : forall r v, ~ U (45 :: r) v).
  { intros r v [H|(x & g & r' & E & _)]; [|discriminate]. destruct (digits_first _ _ _ H) as (c & r' & E & ? & ?). congruence. }
  destruct (sign_split_spec s) as [(r & -> & E)|[(r & -> & E)|(E & Hn)]]; rewrite E.
  - apply Forall_inv_tail in Hs. split.
    + intros H. destruct (scan16 (drop_0x r)) as [v|] eqn:Ev; [|discriminate]. injection H as <-.
      apply hex_either in Ev; [|exact Hs]. exists v. right. left. eauto.
    + intros (v & [(H & _)|[(r' & E' & H & ->)|(r' & E' & _)]]); [exfalso; eapply H1; exact H| |discriminate].
      injection E' as <-. apply hex_either in H; [|exact Hs]. rewrite H. reflexivity.
  - apply Forall_inv_tail in Hs. split.
    + intros H. destruct (scan16 (drop_0x r)) as [v|] eqn:Ev; [|discriminate]. injection H as <-.
      apply hex_either in Ev; [|exact Hs]. exists v. right. right. eauto.
    + intros (v & [(H & _)|[(r' & E' & _)|(r' & E' & H & ->)]]); [exfalso; eapply H2; exact H|discriminate|].
      injection E' as <-. apply hex_either in H; [|exact Hs]. rewrite H. reflexivity.
  - split.
    + intros H. destruct (scan16 (drop_0x s)) as [v|] eqn:Ev; [|discriminate]. injection H as <-.
      apply hex_either in Ev; [|exact Hs]. exists v. left. auto.
    + intros (v & [(H & ->)|[(r & E' & _)|(r & E' & _)]]).
      * apply hex_either in H; [|exact Hs]. rewrite H. reflexivity.
      * destruct (Hn r). contradiction.
      * destruct (Hn r). contradiction.
Qed.
Lemma more_solid acc s v : more 16 acc s v -> Forall (fun c => is_space c = false) s.
Proof.
  assert (HD : forall c d, digit_of 16 c d -> is_space c = false).
  { unfold digit_of, is_space. intros c d H. lia. }
  induction 1 as [|acc c d s v D _ IH|acc c d s v D _ IH]; [constructor| |].
  - constructor; [eapply HD; exact D|exact IH].
  - constructor; [reflexivity|]. constructor; [eapply HD; exact D|exact IH].
Qed.
Lemma digits_solid s v : digits 16 s v -> Forall (fun c => is_space c = false) s.
Proof.
  intros (c & d & r & -> & D & M). constructor; [unfold digit_of in D; unfold is_space; lia|].
  eapply more_solid. exact M.
Qed.
Lemma hex_solid s z : hex_integer s z -> Forall (fun c => is_space c = false) s.
Proof.
  assert (U : forall s v, digits 16 s v \/ prefixed 16 120 88 s v -> Forall (fun c => is_space c = false) s).
  { intros t v [H|(x & g & r & -> & Hx & Hg & H)]; [eapply digits_solid; exact H|].
    constructor; [reflexivity|]. constructor; [destruct Hx as [-> | ->]; reflexivity|].
    apply Forall_app. split; [destruct Hg as [-> | ->]; [constructor|constructor; [reflexivity|constructor]]|].
    eapply digits_solid. exact H. }
  intros (v & [(H & _)|[(r & -> & H & _)|(r & -> & H & _)]]);
    [|constructor; [reflexivity|]..]; eapply U; exact H.
Qed.
Lemma int16_loose s z : int16 s = Ok z <-> loose_number s z.
Proof.
  split.
  - intros H. destruct (drop_while_parts is_space s) as (a & Ea & Ha).
    pose proof H as H0. rewrite int16_steps in H.
    destruct (sign_split_front (drop_while is_space s)) as (g & Eg & Hg).
    destruct (sign_split (drop_while is_space s)) as (neg & s'). cbn [snd] in Eg.
    destruct (drop_0x_front s') as (g' & Eg' & Hg').
    unfold scan16 in H. destruct (scan_hex (drop_0x s') 0 false) as [(v & rest)|] eqn:Es; [|discriminate].
    destruct (forallb is_space rest) eqn:Er; [|discriminate].
    destruct (scan_hex_front _ _ _ _ _ Es) as (p & Ep & Hp).
    assert (E : s = a ++ (g ++ g' ++ p) ++ rest).
    { rewrite Ea, Eg, Eg', Ep, <- !app_assoc. reflexivity. }
    assert (Hr : Forall (fun c => is_space c = true) rest) by (apply Forall_forall; apply forallb_forall; exact Er).
    assert (Hm : Forall (fun c => is_space c = false) (g ++ g' ++ p)) by (rewrite !Forall_app; auto).
    exists a, (g ++ g' ++ p), rest. split; [exact E|]. split.
    + apply Forall_app. split; (eapply Forall_impl; [|eassumption]); intros c Hc; apply white_space; exact Hc.
    + apply int16_bare; [exact Hm|]. rewrite <- H0, E. symmetry. apply int16_around; [|exact Hm].
      apply Forall_app. auto.
  - intros (a & m & b & -> & H & Hm). pose proof (hex_solid m z Hm) as Hs. rewrite int16_around.
    + apply int16_bare; assumption.
    + eapply Forall_impl; [|exact H]. intros c Hc. apply white_space. exact Hc.
    + exact Hs.
Qed.

(** ** Digits and data *)
Lemma hex_char c d : hex_value c = Some d <-> digit_char c d.
Proof.
  split; [|intros H; apply digit_value in H as (H & _); exact H].
  intros H. apply hex_value_digit in H as (H & Hc).
  assert (I : In d (map N.of_nat (seq 0 16))).
  { replace d with (N.of_nat (N.to_nat d)) by lia. apply in_map. apply in_seq. lia. }
  cbn [seq map In N.of_nat] in I.
  assert (Hd : c = nth (N.to_nat d) upper_digits 0 \/ c = nth (N.to_nat d) lower_digits 0).
  { clear H. repeat (destruct I as [I|I]; [subst d; cbv -[N.le N.lt N.add]; cbv -[N.le N.lt] in Hc; clear -Hc; lia|]). contradiction. }
  unfold digit_char. destruct Hd as [-> | ->]; [left|right]; apply nth_error_nth'; change (N.to_nat d < 16)%nat; lia.
Qed.
Lemma pair_char a b v : (exists x y, hex_value a = Some x /\ hex_value b = Some y /\ v = 16 * x + y) <-> SlcanSpec.text [a; b] v.
Proof.
  split.
  - intros (x & y & X & Y & ->). exists [x; y]. split.
    + constructor; [apply hex_char; exact X|]. constructor; [apply hex_char; exact Y|constructor].
    + cbn [fold_left]. lia.
  - intros (ds & F & ->). inversion F as [|? x ? ds' X F1]; subst. inversion F1 as [|? y ? ds'' Y F2]; subst.
    inversion F2; subst. exists x, y. split; [apply hex_char; exact X|]. split; [apply hex_char; exact Y|]. cbn [fold_left]. lia.
Qed.
Lemma a2b_pairs_n n : forall l d, (length l <= n)%nat -> a2b_hex l = Ok d <->
  exists pairs, l = concat pairs /\ Forall2 (fun p b => length p = 2%nat /\ SlcanSpec.text p b) pairs d.
Proof.
  induction n as [|n IH]; intros l d L.
  - destruct l; [|cbn [length] in L; lia]. cbn [a2b_hex]. split.
    + intros [= <-]. exists []. split; [reflexivity|constructor].
    + intros (ps & E & F). destruct F as [|p b ps d (Hp & _) F]; [reflexivity|].
      destruct p; [discriminate|]. discriminate.
  - destruct l as [|a [|b l]].
    + cbn [a2b_hex]. split.
      * intros [= <-]. exists []. split; [reflexivity|constructor].
      * intros (ps & E & F). destruct F as [|p b ps d (Hp & _) F]; [reflexivity|].
        destruct p; [discriminate|]. discriminate.
    + cbn [a2b_hex]. split; [discriminate|]. intros (ps & E & F). exfalso.
      destruct F as [|p b ps d (Hp & _) F]; [discriminate|]. destruct p as [|x [|y [|]]]; try discriminate.
    + cbn [a2b_hex]. split.
      * destruct (hex_value a) as [x|] eqn:X; [|discriminate]. destruct (hex_value b) as [y|] eqn:Y; [|discriminate].
        intros E. apply bind_ok in E as (t & T & E).
        apply IH in T as (ps & -> & F); [|cbn [length] in L; lia].
        assert (Ed : d = 16 * x + y :: t) by congruence. subst d.
        exists ([a; b] :: ps). split; [reflexivity|]. constructor; [|exact F]. split; [reflexivity|]. apply pair_char. eauto.
      * intros (ps & E & F). destruct F as [|p v ps d (Hp & T) F]; [discriminate|].
        destruct p as [|x [|y [|]]]; try discriminate. cbn [concat app] in E. injection E as -> -> ->.
        apply pair_char in T as (x' & y' & X & Y & ->). rewrite X, Y.
        assert (T : a2b_hex (concat ps) = Ok d) by (apply IH; [cbn [length] in L; lia|eauto]). rewrite T. reflexivity.
Qed.
Lemma a2b_pairs l d : a2b_hex l = Ok d <->
  exists pairs, l = concat pairs /\ Forall2 (fun p b => length p = 2%nat /\ SlcanSpec.text p b) pairs d.
Proof. exact (a2b_pairs_n _ l d (le_n _)). Qed.
Lemma pairs_length (pairs : list (list N)) (d : list N) :
  Forall2 (fun p b => length p = 2%nat /\ SlcanSpec.text p b) pairs d -> length (concat pairs) = (length d * 2)%nat.
Proof. induction 1 as [|p b ps d (H & _) _ IH]; [reflexivity|]. cbn [concat]. rewrite app_length, H, IH. cbn [length]. lia. Qed.
Lemma dlc_table d n : d < 16 -> nth_error legal_lengths (N.to_nat d) = Some n <-> dlc_to_datalength d = n.
Proof.
  intros D16.
  assert (M : nth_error (map dlc_to_datalength [0; 1; 2; 3; 4; 5; 6; 7; 8; 9; 10; 11; 12; 13; 14; 15]) (N.to_nat d) = Some (dlc_to_datalength d)).
  { apply map_nth_error. change [0; 1; 2; 3; 4; 5; 6; 7; 8; 9; 10; 11; 12; 13; 14; 15] with (map N.of_nat (seq 0 16)).
    rewrite (map_nth_error N.of_nat (N.to_nat d) (seq 0 16) (d := N.to_nat d)); [f_equal; lia|].
    rewrite nth_error_nth' with (d := 0%nat); [f_equal; apply seq_nth; lia|rewrite seq_length; lia]. }
  rewrite dlc_values in M. rewrite M. split; congruence.
Qed.

(** ** Lines *)
Definition body (id_len : nat) (canfd : bool) (line : list N) : res (option (rxframe * option Z)) :=
  packet_id <- int16 (firstn id_len (skipn 1 line)) ;;
  match nth_error line (1 + id_len) with
  | None => Err IndexError
  | Some c =>
      match hex_value c with
      | None => Err ValueError
      | Some dlc =>
          if (if canfd then 64 <? N.to_nat (dlc_to_datalength dlc) else 8 <? N.to_nat (dlc_to_datalength dlc))%nat then Err DriverError
          else
            packet_data <- a2b_hex (firstn (N.to_nat (dlc_to_datalength dlc) * 2) (skipn (2 + id_len) line)) ;;
            ts <- (if (2 + id_len + N.to_nat (dlc_to_datalength dlc) * 2 <? length line)%nat
                   then t <- int16 (skipn (length line - 4) line) ;; Ok (Some t)
                   else Ok None) ;;
            Ok (Some ({| r_id := packet_id; r_data := packet_data; r_ext := (id_len =? 8)%nat; r_fd := canfd |}, ts))
      end
  end.
Lemma parse_body raw : slcan_parse raw =
  let line := strip (N.eqb END_OF_TEXT) (strip (N.eqb NACK) (strip is_space raw)) in
  match line with
  | [] => Ok None
  | b :: _ => if b =? 84 then body 8 false line else if b =? 116 then body 3 false line
              else if b =? 68 then body 8 true line else Ok None
  end.
Proof.
  unfold slcan_parse. cbn zeta. set (line := strip _ _). clearbody line. destruct line as [|b line]; [reflexivity|].
  destruct (b =? 84); [reflexivity|]. destruct (b =? 116); [reflexivity|]. destruct (b =? 68); reflexivity.
Qed.
(** The rest of a line whose type is known. *)
Definition rest_read (id_len : nat) (canfd : bool) (f : rxframe) (ts : option Z) (line : list N) : Prop :=
  exists k idt c pairs rest dlc n,
    line = k :: idt ++ c :: concat pairs ++ rest /\ length idt = id_len /\ loose_number idt (r_id f) /\
    digit_char c dlc /\ nth_error legal_lengths (N.to_nat dlc) = Some n /\ (canfd = false -> n <= 8) /\
    Forall2 (fun p b => length p = 2%nat /\ SlcanSpec.text p b) pairs (r_data f) /\
    (N.of_nat (length (r_data f)) = n \/ N.of_nat (length (r_data f)) < n /\ rest = []) /\
    match ts with
    | None => rest = []
    | Some t => rest <> [] /\ exists front tail, line = front ++ tail /\ length tail = 4%nat /\ loose_number tail t
    end /\ r_ext f = (id_len =? 8)%nat /\ r_fd f = canfd.
Lemma body_read id_len canfd line f ts : (3 <= id_len)%nat ->
  body id_len canfd line = Ok (Some (f, ts)) <-> rest_read id_len canfd f ts line.
Proof.
  intros H3. split.
  - unfold body. intros E. apply bind_ok in E as (i & I & E).
    destruct (nth_error line (1 + id_len)) as [c|] eqn:C; [|discriminate].
    destruct (hex_value c) as [dlc|] eqn:D; [|discriminate].
    destruct (if canfd then _ else _) eqn:B in E; [discriminate|].
    apply bind_ok in E as (d & A & E). apply bind_ok in E as (t & T & E). injection E as <- <-.
    destruct line as [|k line]; [discriminate|]. cbn [Nat.add nth_error] in C.
    apply nth_error_split in C as (idt & tl & -> & L).
    assert (P1 : firstn id_len (skipn 1 (k :: idt ++ c :: tl)) = idt).
    { cbn [skipn]. apply firstn_app_at. symmetry. exact L. }
    assert (P3 : skipn (2 + id_len) (k :: idt ++ c :: tl) = tl).
    { change (k :: idt ++ c :: tl) with ((k :: idt) ++ [c] ++ tl). rewrite app_assoc. apply skipn_app_at.
      rewrite app_length. cbn [length]. lia. }
    rewrite P1 in I. rewrite P3 in A. apply int16_loose in I.
    assert (D16 : dlc < 16) by (apply hex_value_small in D; exact D).
    set (pl := N.to_nat (dlc_to_datalength dlc)) in *.
    apply a2b_pairs in A as (pairs & Ep & F). pose proof (pairs_length _ _ F) as Lp.
    assert (Etl : tl = concat pairs ++ skipn (pl * 2) tl) by (rewrite <- Ep; symmetry; apply firstn_skipn).
    assert (Ln : length (k :: idt ++ c :: tl) = (2 + id_len + length tl)%nat).
    { cbn [length]. rewrite app_length. cbn [length]. lia. }
    rewrite Ln in T. pose proof (firstn_length (pl * 2) tl) as Lf. rewrite Ep, Lp in Lf.
    exists k, idt, c, pairs, (skipn (pl * 2) tl), dlc, (dlc_to_datalength dlc). cbn [r_id r_data r_ext r_fd].
    split; [rewrite <- Etl; reflexivity|]. split; [exact L|]. split; [exact I|]. split; [apply hex_char; exact D|].
    split; [apply dlc_table; [exact D16|reflexivity]|].
    split. { intros ->. unfold pl in B. lia. }
    split; [exact F|]. split.
    { destruct (Nat.le_gt_cases (pl * 2) (length tl)) as [Q|Q].
      - left. unfold pl in *. lia.
      - right. split; [unfold pl in *; lia|]. apply skipn_all2. lia. }
    split; [|split; reflexivity].
    destruct (2 + id_len + pl * 2 <? 2 + id_len + length tl)%nat eqn:W.
    + apply Nat.ltb_lt in W. apply bind_ok in T as (t' & T & E). injection E as <-. apply int16_loose in T. split.
      * intros X. apply (f_equal (@length N)) in X. rewrite skipn_length in X. cbn [length] in X. lia.
      * set (line := k :: idt ++ c :: tl) in *. set (m := (2 + id_len + length tl - 4)%nat) in *.
        exists (firstn m line), (skipn m line).
        split; [symmetry; apply firstn_skipn|]. split; [|exact T].
        rewrite skipn_length, Ln. unfold m. lia.
    + injection T as <-. apply Nat.ltb_ge in W. apply skipn_all2. lia.
  - intros (k & idt & c & pairs & rest & dlc & n & E & L & I & C & D & B & F & LN & T & X1 & X2).
    set (tl := concat pairs ++ rest) in *. pose proof (pairs_length _ _ F) as Lp.
    assert (P1 : firstn id_len (skipn 1 line) = idt).
    { rewrite E. cbn [skipn]. apply firstn_app_at. symmetry. exact L. }
    assert (P2 : nth_error line (1 + id_len) = Some c).
    { rewrite E. cbn [Nat.add nth_error]. rewrite nth_error_app2 by lia. rewrite L, Nat.sub_diag. reflexivity. }
    assert (P3 : skipn (2 + id_len) line = tl).
    { rewrite E. change (k :: idt ++ c :: tl) with ((k :: idt) ++ [c] ++ tl). rewrite app_assoc. apply skipn_app_at.
      rewrite app_length. cbn [length]. lia. }
    assert (Ln : length line = (2 + id_len + length (r_data f) * 2 + length rest)%nat).
    { rewrite E. cbn [length]. rewrite app_length. cbn [length]. unfold tl. rewrite app_length. lia. }
    apply int16_loose in I. destruct (digit_value _ _ C) as (V & D16).
    apply dlc_table in D; [|exact D16].
    unfold body. rewrite P1, I. cbn [bind]. rewrite P2, V, D, P3, Ln.
    assert (N64 : n <= 64) by (rewrite <- D; unfold dlc_to_datalength; dif; lia).
    replace (if canfd then (64 <? N.to_nat n)%nat else (8 <? N.to_nat n)%nat) with false.
    2:{ destruct canfd; [|specialize (B eq_refl)]; lia. }
    assert (P4 : firstn (N.to_nat n * 2) tl = concat pairs).
    { unfold tl. destruct LN as [LN|(LN & ->)]; [apply firstn_app_at; lia|]. rewrite app_nil_r. apply firstn_all2. lia. }
    rewrite P4. assert (A : a2b_hex (concat pairs) = Ok (r_data f)) by (apply a2b_pairs; eauto). rewrite A. cbn [bind].
    assert (R : {| r_id := r_id f; r_data := r_data f; r_ext := (id_len =? 8)%nat; r_fd := canfd |} = f).
    { destruct f as [ii dd ee ff]. cbn in *. subst. reflexivity. }
    destruct ts as [t|].
    + destruct T as (NE & front & tail & Ef & L4 & T). destruct rest as [|r0 rest]; [congruence|].
      destruct LN as [LN|(_ & LN)]; [|discriminate].
      replace (_ <? _)%nat with true by (cbn [length]; lia).
      assert (P5 : skipn (2 + id_len + length (r_data f) * 2 + length (r0 :: rest) - 4) line = tail).
      { rewrite <- Ln, Ef. apply skipn_app_at. rewrite app_length. lia. }
      rewrite P5. apply int16_loose in T. rewrite T. cbn [bind]. rewrite R. reflexivity.
    + subst rest. cbn [length]. replace (_ <? _)%nat with false by lia. cbn [bind]. rewrite R. reflexivity.
Qed.
Lemma line_read line f ts :
  match line with
  | [] => Ok None
  | b :: _ => if b =? 84 then body 8 false line else if b =? 116 then body 3 false line
              else if b =? 68 then body 8 true line else Ok None
  end = Ok (Some (f, ts)) <-> loose_line f ts line.
Proof.
  split.
  - destruct line as [|b l]; [discriminate|]. set (line := b :: l).
    assert (K : forall id_len canfd, body id_len canfd line = Ok (Some (f, ts)) -> (id_len = 8 \/ id_len = 3)%nat ->
      (canfd = true -> id_len = 8%nat) -> b = (if canfd then 68 else if (id_len =? 8)%nat then 84 else 116) -> loose_line f ts line).
    { intros id_len canfd H HI HF Hb. apply body_read in H; [|lia].
      destruct H as (k & idt & c & pairs & rest & dlc & n & E & L & I & C & D & B & F & LN & T & X1 & X2).
      assert (Hk : k = b) by (unfold line in E; congruence).
      exists idt, c, pairs, rest, dlc, n. rewrite X1, X2.
      split; [rewrite <- Hb, <- Hk; exact E|]. split; [intros Y; rewrite (HF Y); reflexivity|].
      split; [rewrite L; destruct HI as [-> | ->]; reflexivity|]. auto 8. }
    destruct (N.eqb_spec b 84) as [-> |_]; [intros H; apply (K _ _ H); [left; reflexivity|discriminate|reflexivity]|].
    destruct (N.eqb_spec b 116) as [-> |_]; [intros H; apply (K _ _ H); [right; reflexivity|discriminate|reflexivity]|].
    destruct (N.eqb_spec b 68) as [-> |_]; [intros H; apply (K _ _ H); [left; reflexivity|reflexivity|reflexivity]|].
    discriminate.
  - intros (idt & c & pairs & rest & dlc & n & E & FD & L & I & C & D & B & F & LN & T).
    assert (K : forall id_len, length idt = id_len -> (3 <= id_len)%nat -> r_ext f = (id_len =? 8)%nat ->
       body id_len (r_fd f) line = Ok (Some (f, ts))).
    { intros id_len L' H3 X. apply body_read; [exact H3|]. do 7 eexists. split; [exact E|]. split; [exact L'|].
      split; [exact I|]. split; [exact C|]. split; [exact D|]. split; [exact B|]. split; [exact F|]. split; [exact LN|].
      split; [exact T|]. split; [exact X|reflexivity]. }
    destruct (r_fd f) eqn:XF.
    + rewrite (FD eq_refl) in *. rewrite E at 1. apply (K 8%nat L); [lia|reflexivity].
    + destruct (r_ext f) eqn:XE; rewrite E at 1; (apply (K _ L); [lia|reflexivity]).
Qed.
Lemma read_lines raw f ts : slcan_parse raw = Ok (Some (f, ts)) <-> read_as f ts raw.
Proof.
  assert (P1 : forall s t, strip is_space s = t <-> peeled white s t) by (intros; apply strip_peeled; exact white_space).
  assert (P2 : forall k s t, strip (N.eqb k) s = t <-> peeled (eq k) s t).
  { intros k s t. apply strip_peeled. intros c. apply N.eqb_eq. }
  rewrite parse_body. cbn zeta. rewrite line_read. unfold read_as. split.
  - intros H. exists (strip is_space raw), (strip (N.eqb NACK) (strip is_space raw)), (strip (N.eqb END_OF_TEXT) (strip (N.eqb NACK) (strip is_space raw))).
    split; [apply P1; reflexivity|]. split; [apply P2; reflexivity|]. split; [apply P2; reflexivity|exact H].
  - intros (a & b & line & H1 & H2 & H3 & H). apply P1 in H1. apply P2 in H2, H3. subst. exact H.
Qed.

(** ** Regular lines *)
Lemma digits_text l : Forall (fun x => exists d, digit_char x d) l -> exists v, SlcanSpec.text l v.
Proof.
  intros H. assert (K : exists ds, Forall2 digit_char l ds).
  { induction H as [|x l (d & D) _ (ds & F)]; [exists []; constructor|exists (d :: ds); constructor; assumption]. }
  destruct K as (ds & F). eexists. exists ds. split; [exact F|reflexivity].
Qed.
Lemma char_one c d e : digit_char c d -> digit_char c e -> d = e.
Proof. intros D E. apply hex_char in D, E. congruence. Qed.
Lemma loose_digits s z : Forall (fun x => exists d, digit_char x d) s -> s <> [] -> loose_number s z ->
  exists v, SlcanSpec.text s v /\ z = Z.of_N v.
Proof.
  intros F NE H. destruct (digits_text s F) as (v & T). exists v. split; [exact T|].
  apply int16_loose in H. rewrite (int16_text s v T NE) in H. congruence.
Qed.
Lemma app_same {A} (a b c d : list A) : length a = length c -> a ++ b = c ++ d -> a = c /\ b = d.
Proof.
  revert c. induction a as [|x a IH]; intros [|y c] L; cbn [length] in L; try discriminate; [auto|].
  cbn [app]. intros [= -> E]. apply IH in E as (-> & ->); [auto|lia].
Qed.
Lemma regular_read raw f ts : regular raw -> slcan_parse raw = Ok (Some (f, ts)) ->
  exists t, frame_line f t raw /\ ts = option_map Z.of_N t.
Proof.
  intros (k & idt & c & l & dlc & n & E & HK & L & F & C & D & LN) H.
  assert (PL : Forall (fun x => is_space x = false /\ (NACK =? x) = false /\ (END_OF_TEXT =? x) = false) raw).
  { subst raw. constructor; [destruct HK as [-> |[-> | ->]]; repeat split; reflexivity|].
    eapply Forall_impl; [|exact F]. intros x (d & X). destruct (SlcanFacts.digit_plain x (digit_in x d X)) as (X1 & X2 & X3 & _). auto. }
  assert (ST : strip (N.eqb END_OF_TEXT) (strip (N.eqb NACK) (strip is_space raw)) = raw).
  { rewrite (strip_none is_space raw) by (eapply Forall_impl; [|exact PL]; intros x (X & _); exact X).
    rewrite (strip_none (N.eqb NACK) raw) by (eapply Forall_impl; [|exact PL]; intros x (_ & X & _); exact X).
    apply strip_none. eapply Forall_impl; [|exact PL]. intros x (_ & _ & X). exact X. }
  rewrite parse_body, ST in H. cbn zeta in H. apply line_read in H.
  destruct H as (idt' & c' & pairs & rest & dlc' & n' & E' & FD & L' & I & C' & D' & B & P & LD & T).
  pose proof E' as EE. rewrite E in EE. injection EE as Ek EE.
  assert (LL : length idt = length idt').
  { rewrite L, L', Ek. destruct (r_fd f) eqn:XF; [rewrite (FD eq_refl); reflexivity|]. destruct (r_ext f); reflexivity. }
  apply app_same in EE as (-> & EE); [|exact LL]. injection EE as -> ->.
  rewrite <- (char_one _ _ _ C C') in D'. rewrite D in D'. injection D' as <-.
  pose proof (pairs_length _ _ P) as Lp. rewrite app_length in LN.
  apply Forall_app in F as (F1 & F2). apply Forall_cons_iff in F2 as (_ & F2). apply Forall_app in F2 as (_ & F3).
  assert (LD' : N.of_nat (length (r_data f)) = n).
  { destruct LD as [LD|(LD & ->)]; [exact LD|]. cbn [length] in LN. lia. }
  assert (NI : idt' <> []).
  { intros ->. destruct (r_ext f); discriminate. }
  destruct (loose_digits idt' (r_id f) F1 NI I) as (i & TI & EI).
  assert (TC : SlcanSpec.text [c'] dlc).
  { exists [dlc]. split; [constructor; [exact C|constructor]|]. cbn [fold_left]. lia. }
  assert (K : forall tail t, rest = tail -> match t with None => tail = [] | Some t => length tail = 4%nat /\ SlcanSpec.text tail t end ->
    frame_line f t raw).
  { intros tail t -> HT. exists idt', c', pairs, tail, dlc. split; [exact E'|]. split; [exact FD|]. split; [exact L'|].
    split; [exists i; auto|]. split; [exact TC|]. split; [rewrite LD'; exact D|].
    split; [intros X; specialize (B X); lia|]. split; [exact P|exact HT]. }
  destruct ts as [t|].
  - destruct T as (NE & front & tail & Ef & L4 & T).
    assert (L4' : length rest = 4%nat).
    { destruct rest; [congruence|]. cbn [length] in *. lia. }
    assert (ET : tail = rest).
    { rewrite E' in Ef. rewrite app_comm_cons in Ef. change (c' :: concat pairs ++ rest) with ([c'] ++ concat pairs ++ rest) in Ef.
      rewrite !app_assoc in Ef. assert (LF : length front = length ((((if r_fd f then 68 else if r_ext f then 84 else 116) :: idt') ++ [c']) ++ concat pairs)).
      { apply (f_equal (@length N)) in Ef. rewrite !app_length in Ef. rewrite !app_length. lia. }
      symmetry in Ef. apply app_same in Ef as (_ & Ef); [exact Ef|exact LF]. }
    subst tail. destruct (loose_digits rest t F3 NE T) as (v & TV & ->).
    exists (Some v). split; [|reflexivity]. apply (K rest); [reflexivity|]. auto.
  - exists None. split; [|reflexivity]. apply (K []); [exact T|reflexivity].
Qed.
