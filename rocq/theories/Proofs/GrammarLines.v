(** Lines: the parser against the grammar. *)
From Coq Require Import String.
From Verif.Base Require Import Prelude Bits.
From Verif.Model Require Import Types Prim Float Slcan Parser.
From Verif.Spec Require Import PrimSpec FloatSpec ParserSpec GrammarSpec.
From Verif.Proofs Require Import PrimFacts FloatFacts FloatTop ParserText ParserFacts ParserMeaning ParserLoad GrammarNumbers GrammarTypes.
Open Scope list_scope.
Open Scope Z_scope.

(** ** Words *)
Lemma word_no_ws w : word w -> w <> [] /\ no_ws w.
Proof.
  intros (Hn & H). split; [exact Hn|]. eapply Forall_impl; [|exact H]. intros c Hc. apply word_char. exact Hc.
Qed.
Lemma words_join l : Forall word l -> words (join (txt " ") l) = l.
Proof.
  intros H. induction H as [|w l Hw H IH]; [reflexivity|]. apply word_no_ws in Hw as (Hn & Hw).
  destruct l as [|v l].
  - cbn [join]. rewrite <- (app_nil_r w) at 1. rewrite words_word; [reflexivity|exact Hn|exact Hw|]. left. reflexivity.
  - rewrite join_cons by discriminate. change (txt " ") with [32%N] at 1. cbn [app]. rewrite words_word; [|exact Hn|exact Hw|].
    + f_equal. change (32%N :: join (txt " ") (v :: l)) with ([32%N] ++ join (txt " ") (v :: l)).
      rewrite words_ws; [exact IH|]. constructor; [reflexivity|constructor].
    + right. eexists _, _. split; reflexivity.
Qed.
Lemma line_of_word l s : line_of l s -> Forall word l.
Proof. intros H. induction H; constructor; auto. Qed.
Lemma written_word L s : written L s -> Forall (Forall word) L.
Proof. intros H. induction H; constructor; eauto using line_of_word. Qed.

Lemma spelt_matches (f r : N -> bool) (F R : N -> Prop) s :
  (forall c, F c -> f c = true) -> (forall c, R c -> r c = true) -> spelt F R s -> matches f r s = true.
Proof.
  intros HF HR (c & t & -> & Hc & Ht). unfold matches. rewrite (HF c Hc). cbn [andb].
  apply forallb_forall. intros x Hx. rewrite Forall_forall in Ht. auto.
Qed.
Lemma alnum_name_char c : alnum c -> name_char c = true.
Proof. unfold name_char, is_lower, is_upper, is_digit, alnum, lower, upper, digit, underscore. lia. Qed.
Lemma attribute_iff nm : validate_attribute_name nm = Ok tt <-> attribute_name nm.
Proof.
  split; [apply validate_attribute|]. intros H. unfold validate_attribute_name.
  rewrite (spelt_matches _ _ (fun c => lower c \/ upper c) alnum nm); [reflexivity| |apply alnum_name_char|exact H].
  cbv beta. unfold is_lower, is_upper, lower, upper. lia.
Qed.

(** ** Constants *)
Definition range_check (k : kind) (n : nat) (v : cvalue) : res bool :=
  match k, v with
  | KFloat, CFloat x => float_in_range n x
  | KFloat, CInt z => float_in_range n (FFin (z <? 0)%Z (Z.abs z) 0)
  | _, CInt z => '(lo, hi) <- value_range k n ;; Ok ((lo <=? z) && (z <=? hi))%Z
  | _, CFloat _ => Err TypeError
  end.
Definition value_double (v : cvalue) : Prop := match v with CFloat x => is_double x | CInt _ => True end.
(** The constants that the parser accepts. *)
Definition accepted (c : constant) : Prop :=
  legal_type (QPrim (k_type c) (k_bits c) (k_cast c)) /\ value_double (k_value c) /\
  range_check (k_type c) (k_bits c) (k_value c) = Ok true.

Lemma cut_spec x z : is_double x -> int_of_float x = Ok z <-> cut x z.
Proof.
  intros Hd. destruct x as [|s|s m e]; [split; [discriminate|intros []]..|].
  cbn [is_double] in Hd. cbn [int_of_float cut]. destruct Hd as ((Hm & _) & _).
  destruct (Z.leb_spec 0 e) as [He|He].
  - replace (Z.max (- e) 0) with 0 by lia. replace (Z.max e 0) with e by lia. change (2 ^ 0) with 1.
    pose proof (pow2_pos e He) as Hp. remember (2 ^ e) as a. split.
    + intros H. exists (m * a). split; [congruence|]. nia.
    + intros (q & -> & Hq & Hb). assert (q = m * a) by lia. subst q. reflexivity.
  - replace (Z.max (- e) 0) with (- e) by lia. replace (Z.max e 0) with 0 by lia. change (2 ^ 0) with 1.
    pose proof (pow2_pos (- e) ltac:(lia)) as Hp. remember (2 ^ (- e)) as a. split.
    + intros H. exists (m / a). split; [congruence|]. split; [apply Z.div_pos; lia|].
      pose proof (Z.mul_div_le m a Hp). pose proof (Z.mul_succ_div_gt m a Hp). lia.
    + intros (q & -> & Hq & Hb). replace (m / a) with q; [reflexivity|].
      apply (Z.div_unique_pos m a q (m - q * a)); lia.
Qed.

Lemma float_of_int_double z x : float_of_int z = Ok x -> is_double x.
Proof.
  unfold float_of_int. intros H. apply bind_ok in H as (p & _ & H). injection H as <-.
  unfold unpack_f64, decode_pattern.
  pose proof (Z.mod_pos_bound (p / 2 ^ 52) (2 ^ 11) ltac:(lia)) as Hb.
  pose proof (Z.mod_pos_bound p (2 ^ 52) ltac:(lia)) as Hf.
  set (ex := (p / 2 ^ 52) mod 2 ^ 11) in *. set (fr := p mod 2 ^ 52) in *. clearbody ex fr.
  destruct (ex =? 2 ^ 11 - 1) eqn:E; [destruct (fr =? 0); exact I|].
  destruct (Z.eqb_spec ex 0) as [E0|E0]; cbn [is_double].
  - change (2 ^ 53) with (2 * 2 ^ 52). remember (2 ^ 52) as a. lia.
  - change (2 ^ 53) with (2 * 2 ^ 52). remember (2 ^ 52) as a. change (2 ^ 11) with 2048 in *. lia.
Qed.

Section Const.
  Variable ev : text -> option pyv.
  Hypothesis Hev : forall e x, ev e = Some (VFloat x) -> is_double x.

  Lemma make_constant_iff k n cm nm expr c : Forall word expr -> legal_type (QPrim k n cm) ->
    make_constant ev (QPrim k n cm) nm (join (txt " ") expr) = Ok c <->
    exists x v, ev (List.concat expr) = Some x /\ const_value k x v /\
      c = {| k_type := k; k_bits := n; k_cast := cm; k_name := nm; k_value := v |} /\ accepted c.
  Proof.
    intros Hw Hleg. unfold make_constant. rewrite (words_join expr Hw). split.
    - intros H. apply bind_ok in H as (v & Hv & H). apply bind_ok in H as (ok & Hok & H).
      apply bind_ok in H as (u & He & H). apply enforce_ok in He. subst ok.
      destruct (ev (List.concat expr)) as [x|] eqn:Ee; [|discriminate]. exists x, v. split; [reflexivity|].
      assert (Hcv : const_value k x v /\ value_double v).
      { destruct x as [l|z|x|]; [| | |discriminate].
        - destruct l as [|ch [|? ?]]; try discriminate. injection Hv as <-. split; [constructor|exact I].
        - destruct k; [injection Hv as <-; split; [constructor; discriminate|exact I]..|].
          apply bind_ok in Hv as (x & Hx & Hv). injection Hv as <-. split; [constructor; exact Hx|].
          exact (float_of_int_double _ _ Hx).
        - pose proof (Hev _ _ Ee) as Hx.
          destruct k; [apply bind_ok in Hv as (z & Hz & Hv); injection Hv as <-; (split; [|exact I]);
                       (apply value_cut; [discriminate|]); apply cut_spec; assumption..|].
          injection Hv as <-. split; [constructor|exact Hx]. }
      split; [apply Hcv|]. split; [congruence|]. assert (Ec : c = {| k_type := k; k_bits := n; k_cast := cm; k_name := nm; k_value := v |}) by congruence.
      subst c. split; [exact Hleg|]. split; [apply Hcv|]. cbn [k_type k_bits k_value]. destruct k, v; exact Hok.
    - intros (x & v & Ee & Hcv & -> & (_ & _ & Hr)). cbn [k_type k_bits k_value] in Hr. rewrite Ee.
      assert (Hv : (match x with
              | VStr [c] => Ok (CInt (Z.of_N c))
              | VInt z =>
                  match k with
                  | KFloat => x <- float_of_int z ;; Ok (CFloat x)
                  | _ => Ok (CInt z)
                  end
              | VFloat x =>
                  match k with
                  | KFloat => Ok (CFloat x)
                  | _ => z <- int_of_float x ;; Ok (CInt z)
                  end
              | _ => Err DsdlException
              end) = Ok v).
      { destruct Hcv as [k ch|k z Hk|k x z Hk Hc|x|z x Hx].
        - reflexivity.
        - destruct k; congruence.
        - apply cut_spec in Hc; [|exact (Hev _ _ Ee)]. rewrite Hc. destruct k; try reflexivity. congruence.
        - reflexivity.
        - rewrite Hx. reflexivity. }
      destruct x as [[|ch [|? ?]]|z|x|]; try discriminate; rewrite Hv; cbn [bind];
        (replace (match k, v with
               | KFloat, CFloat x => float_in_range n x
               | KFloat, CInt z => float_in_range n (FFin (z <? 0)%Z (Z.abs z) 0)
               | _, CInt z => '(lo, hi) <- value_range k n ;; Ok ((lo <=? z) && (z <=? hi))%Z
               | _, CFloat _ => Err TypeError
               end) with (Ok true) by (rewrite <- Hr; destruct k, v; reflexivity)); reflexivity.
  Qed.
End Const.

(** *** Ranges *)
Lemma accepted_within c : accepted c -> const_within (range_slack c) c.
Proof.
  intros (Ht & Hd & Hok). destruct c as [k n cm nm v]. cbn [k_type k_bits k_cast k_value] in *.
  unfold const_within, range_slack. cbn [k_type k_bits k_value].
  assert (Hint : k <> KFloat -> exists z lo hi, v = CInt z /\ value_range k n = Ok (lo, hi) /\ lo <= z <= hi).
  { intros Hk. destruct v as [z|x].
    - assert (E : ('(lo, hi) <- value_range k n ;; Ok ((lo <=? z) && (z <=? hi))) = Ok true)
        by (destruct k; [exact Hok|exact Hok|exact Hok|congruence]).
      apply bind_ok in E as ((lo & hi) & E1 & E2). exists z, lo, hi. split; [reflexivity|]. split; [exact E1|].
      injection E2 as E2. lia.
    - destruct k; try discriminate. congruence. }
  assert (Hn : (1 <= n <= 64)%nat) by (inversion Ht; subst; lia).
  destruct k.
  - destruct (Hint ltac:(discriminate)) as (z & lo & hi & -> & E & Hz). exists z, z.
    split; [reflexivity|]. split; [|lia]. assert (n = 1%nat) by (inversion Ht; subst; [reflexivity|intuition discriminate]).
    subst n. cbn [value_range] in E. rewrite unsigned_range_ok in E by lia. injection E as <- <-. cbn [int_fits].
    change (2 ^ Z.of_nat 1) with 2 in *. lia.
  - destruct (Hint ltac:(discriminate)) as (z & lo & hi & -> & E & Hz). exists z, z.
    split; [reflexivity|]. split; [|lia]. cbn [value_range] in E. rewrite unsigned_range_ok in E by exact Hn.
    injection E as <- <-. cbn [int_fits]. lia.
  - destruct (Hint ltac:(discriminate)) as (z & lo & hi & -> & E & Hz). cbn [value_range] in E.
    pose proof (pow2_pos (Z.of_nat n - 1) ltac:(lia)) as Hp. cbn [int_fits].
    destruct (Nat.leb_spec 54 n) as [Hb|Hb].
    + rewrite signed_range_big in E by lia. unfold int_lo, int_hi in E. injection E as <- <-.
      exists z, (Z.max (- 2 ^ (Z.of_nat n - 1)) (Z.min z (2 ^ (Z.of_nat n - 1) - 1))).
      split; [reflexivity|]. remember (2 ^ (Z.of_nat n - 1)) as q. lia.
    + rewrite signed_range_small in E by lia. unfold int_lo, int_hi in E. injection E as <- <-.
      exists z, z. split; [reflexivity|]. lia.
  - assert (Hf : (n = 16 \/ n = 32 \/ n = 64)%nat) by (inversion Ht; subst; [intuition discriminate|assumption]).
    destruct v as [z|x]; cbn [const_units range_check value_double] in *.
    + destruct (float_range_units n (FFin (z <? 0) (Z.abs z) 0) Hf) as (u' & Eu & Hu); [|exact Hok|].
      { intros s m e E. apply (f_equal (fun x => match x with FFin _ _ e => e | _ => 0 end)) in E.
        cbv beta iota in E. lia. }
      exists u'. split; [|exact Hu]. rewrite <- Eu. cbn [units]. f_equal. unfold signum.
      change (0 + 1074) with 1074. remember (2 ^ 1074) as q. destruct (Z.ltb_spec z 0); lia.
    + apply (float_range_units n x Hf); [|exact Hok]. intros s m e ->. cbn in Hd. lia.
Qed.

Lemma units_float_range n x : (n = 16 \/ n = 32 \/ n = 64)%nat ->
  (forall s m e, x = FFin s m e -> -1074 <= e) -> (exists u, units x = Some u /\ Z.abs u <= float_limit n) ->
  float_in_range n x = Ok true.
Proof.
  intros Hn Hx (u & Hu & Hb).
  assert (Hm : exists M E, float_max n = Ok (FFin false M E) /\ -1074 <= E /\ M * 2 ^ (E + 1074) = float_limit n).
  { destruct Hn as [->|[->| ->]]; eexists _, _; (split; [reflexivity|]);
      (split; [lia|]); vm_compute; reflexivity. }
  destruct Hm as (M & E & EM & HE & Hl). unfold float_in_range. rewrite EM. cbn [bind].
  destruct x as [|s|s m e]; [discriminate..|]. pose proof (Hx _ _ _ eq_refl) as He. clear Hx.
  cbn [units] in Hu. assert (Eu : u = signum s * (m * 2 ^ (e + 1074))) by congruence. clear Hu. rewrite <- Hl in Hb.
  cbn [fneg negb]. unfold fge.
  rewrite (flt_units false M E s m e (-1074)) by assumption.
  rewrite (flt_units s m e true M E (-1074)) by assumption.
  replace (e - -1074) with (e + 1074) by lia. replace (E - -1074) with (E + 1074) by lia.
  remember (2 ^ (e + 1074)) as a. remember (2 ^ (E + 1074)) as b.
  assert (E2 : signed_mantissa s m * a = u) by (rewrite Eu; unfold signed_mantissa, signum; destruct s; ring).
  rewrite E2. f_equal. apply andb_true_iff. split; apply negb_true_iff, Z.ltb_ge; unfold signed_mantissa; cbv iota; lia.
Qed.

Lemma within_accepted c : legal_type (QPrim (k_type c) (k_bits c) (k_cast c)) -> value_double (k_value c) ->
  const_within 0 c -> accepted c.
Proof.
  intros Ht Hd H. split; [exact Ht|]. split; [exact Hd|]. destruct c as [k n cm nm v].
  unfold const_within in H. cbn [k_type k_bits k_cast k_value] in *.
  assert (Hn : (1 <= n <= 64)%nat) by (inversion Ht; subst; lia).
  destruct k.
  - destruct H as (z & z' & -> & Hz & Hzz). assert (z' = z) by lia. subst z'.
    assert (n = 1%nat) by (inversion Ht; subst; [reflexivity|intuition discriminate]). subst n.
    cbn [range_check value_range int_fits] in *. rewrite unsigned_range_ok by lia. cbn [bind].
    change (2 ^ Z.of_nat 1) with 2 in *. f_equal. lia.
  - destruct H as (z & z' & -> & Hz & Hzz). assert (z' = z) by lia. subst z'.
    cbn [range_check value_range int_fits] in *. rewrite unsigned_range_ok by exact Hn. cbn [bind].
    remember (2 ^ Z.of_nat n) as q. f_equal. lia.
  - destruct H as (z & z' & -> & Hz & Hzz). assert (z' = z) by lia. subst z'.
    cbn [range_check value_range int_fits] in *. pose proof (pow2_pos (Z.of_nat n - 1) ltac:(lia)) as Hp.
    destruct (Nat.leb_spec 54 n) as [Hb|Hb].
    + rewrite signed_range_big by lia. unfold int_lo, int_hi. cbn [bind]. remember (2 ^ (Z.of_nat n - 1)) as q. f_equal. lia.
    + rewrite signed_range_small by lia. unfold int_lo, int_hi. cbn [bind]. remember (2 ^ (Z.of_nat n - 1)) as q. f_equal. lia.
  - assert (Hf : (n = 16 \/ n = 32 \/ n = 64)%nat) by (inversion Ht; subst; [intuition discriminate|assumption]).
    destruct v as [z|x]; cbn [const_units range_check value_double] in *.
    + apply units_float_range; [exact Hf| |].
      * intros s m e E. apply (f_equal (fun x => match x with FFin _ _ e => e | _ => 0 end)) in E.
        cbv beta iota in E. lia.
      * destruct H as (u & Eu & Hu). exists u. split; [|exact Hu]. rewrite <- Eu. cbn [units]. f_equal. unfold signum.
        change (0 + 1074) with 1074. remember (2 ^ 1074) as q. destruct (Z.ltb_spec z 0); lia.
    + apply units_float_range; [exact Hf| |exact H]. intros s m e ->. cbn in Hd. lia.
Qed.

(** ** Lines *)
Section Lines.
  Variable search_dirs : list text.
  Variable listdir : text -> option (list text).
  Variable read : text -> option text.
  Variable ev : text -> option pyv.
  Hypothesis Hev : forall e x, ev e = Some (VFloat x) -> is_double x.
  Notation parse_type := (parse_type search_dirs listdir read).
  Notation parse_line := (parse_line search_dirs listdir read ev).
  Notation located := (located search_dirs listdir read).
  Notation types P fn := (type_says true (located P fn)).
  Notation lines P fn := (line_says true (located P fn) ev accepted).

  Lemma type_iff P fn cast cm td t : cast_rel cast cm -> word td ->
    parse_type P (S (length td)) fn td cast = Ok t <-> types P fn cm td t.
  Proof.
    intros Hc Hw. apply word_no_ws in Hw as (Hne & Hw). split.
    - apply parse_type_says; assumption.
    - intros H. eapply says_parse_type; [exact Hc|exact H|exact Hw|]. left. destruct td; [congruence|cbn [length]; lia].
  Qed.

  Definition attr_decl (a : attribute) : decl := match a with AField f => DField f | AConst c => DConst c end.

  Lemma with_cast_uncast l cast toks : l <> [] -> uncast l = (cast, toks) ->
    (exists cm, cast_rel cast cm /\ with_cast l cm toks).
  Proof.
    destruct l as [|w ws]; [congruence|]. intros _. cbn [uncast].
    destruct (text_eqb w (txt "saturated") || text_eqb w (txt "truncated")) eqn:E; intros [= <- <-].
    - apply is_cast_dec in E as [-> | ->].
      + exists (Some Saturated). split; [reflexivity|]. constructor. reflexivity.
      + exists (Some Truncated). split; [reflexivity|]. constructor. reflexivity.
    - exists None. split; [exact I|]. constructor. rewrite <- is_cast_dec. congruence.
  Qed.
  Lemma with_cast_fun l cm toks : with_cast l cm toks -> exists cast, cast_rel cast cm /\ uncast l = (cast, toks).
  Proof.
    intros [w ws H|w m ws H]; cbn [uncast].
    - exists None. split; [exact I|]. rewrite <- is_cast_dec in H.
      destruct (text_eqb w (txt "saturated") || text_eqb w (txt "truncated")); [congruence|reflexivity].
    - exists (Some w). split; [exact H|]. destruct m; cbn [cast_word] in H; subst w; reflexivity.
  Qed.
  Lemma with_cast_incl l cm toks : with_cast l cm toks -> incl toks l.
  Proof. intros [w ws H|w m ws H] x Hx; [exact Hx|right; exact Hx]. Qed.

  Lemma type_legal P fn cm td k n m : types P fn cm td (QPrim k n m) -> legal_type (QPrim k n m).
  Proof.
    intros H. inversion H as [| |? ? _ _|? ? ? Hb|? ? ? Hb|? ? ? Hb| |? ? _ Hl]; subst;
      [apply legal_bool..|apply legal_int; auto; lia|apply legal_int; auto; lia|apply legal_float; lia|].
    destruct Hl as (fn' & d & _ & _ & p & _ & E). discriminate.
  Qed.

  Lemma parse_line_iff P fn l a : Forall word l -> l <> [] ->
    parse_line P fn l = Ok a <->
    lines P fn l (attr_decl a) /\ (forall t, l <> [txt "OVERRIDE_SIGNATURE"; t]) \/
    (exists t ty, l = [txt "OVERRIDE_SIGNATURE"; t] /\ a = AField (Some t, ty) /\ attribute_name t /\
       types P fn None (txt "OVERRIDE_SIGNATURE") ty).
  Proof.
    intros Hw Hne. rewrite parse_line_uncast. split.
    - intros H. destruct (uncast l) as (cast & toks) eqn:Eu.
      destruct (with_cast_uncast _ _ _ Hne Eu) as (cm & Hrel & Hc).
      assert (Hwt : Forall word toks).
      { apply Forall_forall. intros x Hx. rewrite Forall_forall in Hw. apply Hw. eapply with_cast_incl; eassumption. }
      assert (Hov : forall t, l = [txt "OVERRIDE_SIGNATURE"; t] -> toks = [txt "OVERRIDE_SIGNATURE"; t] /\ cm = None).
      { intros t ->. inversion Hc; subst; [auto|]. exfalso. destruct cm0; cbn [cast_word] in *; discriminate. }
      destruct toks as [|ty [|nm rest]]; [discriminate|..].
      + destruct (starts_with (txt "void") ty) eqn:Ev; [|discriminate]. apply starts_with_app in Ev as (r & Er).
        apply bind_ok in H as (t & Ht & H). injection H as <-. left. split.
        * cbn [attr_decl]. eapply says_padding; [exact Hc|exact Er|].
          apply (type_iff P fn cast cm ty t Hrel) in Ht; [exact Ht|]. exact (Forall_inv Hwt).
        * intros t' E. apply Hov in E as (E & _). discriminate.
      + apply bind_ok in H as ([] & Hn & H). apply attribute_iff in Hn. apply bind_ok in H as (t & Ht & H).
        apply (type_iff P fn cast cm ty t Hrel) in Ht; [|exact (Forall_inv Hwt)]. destruct rest as [|eq expr].
        * injection H as <-. destruct (list_eq_dec (list_eq_dec N.eq_dec) l [txt "OVERRIDE_SIGNATURE"; nm]) as [El|El].
          -- right. destruct (Hov _ El) as (E & ->). injection E as ->. exists nm, t. auto.
          -- left. split; [eapply says_field; eassumption|].
             intros t' E. destruct (Hov _ E) as (E' & _). assert (nm = t') by congruence. subst t'. contradiction.
        * left. destruct (nonempty expr && text_eqb eq (txt "=")) eqn:Ee; [|discriminate].
          apply andb_true_iff in Ee as (Ee & Eq). apply text_eqb_eq in Eq. subst eq.
          apply bind_ok in H as (c & Hm & H). injection H as <-.
          destruct t as [k n m| | |]; [|discriminate..].
          assert (Hwe : Forall word expr).
          { apply Forall_inv_tail in Hwt. apply Forall_inv_tail in Hwt. apply Forall_inv_tail in Hwt. exact Hwt. }
          apply (make_constant_iff ev Hev k n m nm expr c Hwe (type_legal _ _ _ _ _ _ _ Ht)) in Hm as (x & v & E1 & E2 & -> & E3).
          split.
          -- cbn [attr_decl]. eapply says_constant; try eassumption. intros ->. discriminate.
          -- intros t' E. apply Hov in E as (E & _). discriminate.
    - assert (Hwl : forall cm toks, with_cast l cm toks -> Forall word toks).
      { intros cm toks Hc. apply Forall_forall. intros x Hx. rewrite Forall_forall in Hw. apply Hw. eapply with_cast_incl; eassumption. }
      intros [(H & Hno)|(t & ty & -> & -> & Hn & Ht)].
      + inversion H as [E0 E|t z Hz E0 E|l0 cm t r ty Hc Hr Ht E0 E|l0 cm t nm ty Hc Hl Hn Ht E0 E
                       |l0 cm t nm expr k n m x v Hc Hx Hn Ht He Hv c Ha E0 E]; subst; destruct a as [f|c']; try discriminate.
        * injection E as E. subst f. pose proof (Hwl _ _ Hc) as Hwt. apply with_cast_fun in Hc as (cast & Hrel & ->).
          cbv iota beta zeta. rewrite (proj2 (starts_with_app (txt "void") (txt "void" ++ r))) by eauto.
          rewrite (proj2 (type_iff P fn cast cm (txt "void" ++ r) ty Hrel (Forall_inv Hwt)) Ht). reflexivity.
        * injection E as E. subst f. pose proof (Hwl _ _ Hc) as Hwt. apply with_cast_fun in Hc as (cast & Hrel & ->).
          cbv iota beta zeta. rewrite (proj2 (attribute_iff nm) Hn). cbn [bind].
          rewrite (proj2 (type_iff P fn cast cm t ty Hrel (Forall_inv Hwt)) Ht). reflexivity.
        * cbn [attr_decl] in E. assert (c' = c) by congruence. subst c'. pose proof (Hwl _ _ Hc) as Hwt. apply with_cast_fun in Hc as (cast & Hrel & ->).
          cbv iota beta zeta. rewrite (proj2 (attribute_iff nm) Hn). cbn [bind].
          rewrite (proj2 (type_iff P fn cast cm t _ Hrel (Forall_inv Hwt)) Ht). cbn [bind].
          replace (nonempty expr) with true by (destruct expr; [congruence|reflexivity]).
          change (text_eqb (txt "=") (txt "=")) with true. cbn [andb].
          assert (Hwe : Forall word expr).
          { apply Forall_inv_tail in Hwt. apply Forall_inv_tail in Hwt. apply Forall_inv_tail in Hwt. exact Hwt. }
          rewrite (proj2 (make_constant_iff ev Hev k n m nm expr c Hwe (type_legal _ _ _ _ _ _ _ Ht)))
            by (exists x, v; auto). reflexivity.
      + change (uncast [txt "OVERRIDE_SIGNATURE"; t]) with (@None text, [txt "OVERRIDE_SIGNATURE"; t]). cbv iota beta zeta.
        rewrite (proj2 (attribute_iff t) Hn). cbn [bind].
        rewrite (proj2 (type_iff P fn None None _ ty I (Forall_inv Hw)) Ht). reflexivity.
  Qed.
End Lines.
