(** Constants, nesting and loading. *)
From Coq Require Import String.
From Verif.Base Require Import Prelude Bits.
From Verif.Model Require Import Types Prim Float Slcan Parser.
From Verif.Spec Require Import FloatSpec PrimSpec ParserSpec.
From Verif.Proofs Require Import FloatFacts FloatTop PrimFacts ParserText ParserFacts ParserMeaning.
Open Scope list_scope.
Open Scope Z_scope.

(** ** Attributes *)

Section Attributes.
  Variable search_dirs : list text.
  Variable listdir : text -> option (list text).
  Variable read : text -> option text.
  Variable ev : text -> option pyv.
  Notation name_from_filename := (name_from_filename search_dirs).
  Notation parse_type := (parse_type search_dirs listdir read).
  Notation parse_line := (parse_line search_dirs listdir read ev).
  Notation line_step := (line_step search_dirs listdir read ev).
  Notation lines_loop := (lines_loop search_dirs listdir read ev).
  Notation parse_source := (parse_source search_dirs listdir read ev).
  Notation parse := (parse search_dirs listdir read ev).

  (** What holds of each attribute line holds of each attribute. *)
  Section Each.
    Variable P : text -> res definition.
    Variable fn : text.
    Variable F : field -> Prop.
    Variable K : constant -> Prop.
    Hypothesis each : forall tokens a, parse_line P fn tokens = Ok a ->
      match a with AField f => F f | AConst c => K c end.
    Definition part_each (p : part) : Prop := Forall F (p_fields p) /\ Forall K (p_consts p).
    Definition state_each (s : pstate) : Prop := part_each (s_request s) /\ part_each (s_response s).
    Lemma current_each s : state_each s -> part_each (current s).
    Proof. intros (H1 & H2). unfold current. now destruct (s_is_response s). Qed.
    Lemma set_current_each s names p : state_each s -> part_each p -> state_each (set_current s names p).
    Proof.
      intros (H1 & H2) Hp. unfold set_current, state_each.
      destruct (s_is_response s); cbn [s_request s_response]; now split.
    Qed.
    Lemma line_step_each s tokens s' : state_each s -> line_step P fn s tokens = Ok s' -> state_each s'.
    Proof.
      intros Hs H.
      destruct (line_step_cases search_dirs listdir read ev P fn s tokens) as [E|[(_ & E)|[(_ & E)|(t & _ & E)]]];
        rewrite E in H; clear E.
      - unfold add_step in H. apply bind_ok in H as (a & Ha & H). apply each in Ha.
        assert (Hadd : part_each (add_attr (current s) a)).
        { apply current_each in Hs as (H1 & H2). destruct a as [f|c]; cbn [add_attr]; split; cbn [p_fields p_consts];
            try assumption; apply Forall_app; split; try assumption; constructor; auto. }
        destruct (attr_name a) as [nm|].
        + apply bind_ok in H as (u & _ & H). injection H as <-. now apply set_current_each.
        + injection H as <-. now apply set_current_each.
      - apply bind_ok in H as (u & _ & H). injection H as <-. exact Hs.
      - apply bind_ok in H as (u & _ & H). injection H as <-. apply set_current_each; [exact Hs|].
        apply current_each in Hs. exact Hs.
      - apply bind_ok in H as (z & _ & H). injection H as <-. exact Hs.
    Qed.
    Lemma lines_loop_each L s s' : state_each s -> lines_loop P fn s L = Ok s' -> state_each s'.
    Proof.
      revert s. induction L as [|l L IH]; cbn [Parser.lines_loop]; intros s Hs H.
      - now injection H as <-.
      - apply bind_ok in H as (s1 & H1 & H). apply (line_step_each _ _ _ Hs) in H1. exact (IH _ H1 H).
    Qed.
    Lemma parse_source_each source d : parse_source P fn source = Ok d -> Forall part_each (parts (d_body d)).
    Proof.
      intros H. unfold Parser.parse_source in H.
      apply bind_ok in H as (((full & v) & id) & Hn & H). apply bind_ok in H as (s & Hs & H).
      apply refuse_ok in Hs. apply lines_loop_each in Hs as (Hrq & Hrs); [|split; split; constructor].
      apply bind_ok in H as (u1 & _ & H). apply bind_ok in H as (u2 & _ & H).
      assert (E : d_body d = if s_is_response s then Service (s_request s) (s_response s) else Message (s_request s))
        by (injection H as <-; reflexivity).
      rewrite E. destruct (s_is_response s); cbn [parts]; repeat (constructor; [assumption|]); constructor.
    Qed.
  End Each.

  (** ** Constants *)

  Lemma parse_line_const P fn tokens c : sound search_dirs P -> parse_line P fn tokens = Ok (AConst c) ->
    exists t nm expr, legal_type t /\ make_constant ev t nm expr = Ok c.
  Proof.
    intros HP H. unfold Parser.parse_line in H.
    destruct (match tokens with [] => _ | _ => _ end) as [cast toks].
    destruct toks as [|ty [|nm rest]]; [discriminate| |].
    - destruct (starts_with (txt "void") ty); [|discriminate]. apply bind_ok in H as (t & _ & H). discriminate.
    - apply bind_ok in H as ([] & Hn & H). apply bind_ok in H as (t & Ht & H). destruct rest as [|eq expr]; [discriminate|].
      destruct (nonempty expr && text_eqb eq (txt "=")); [|discriminate].
      apply bind_ok in H as (c' & Hc & H). injection H as <-.
      exists t, nm, (join (txt " ") expr). split; [exact (parse_type_legal search_dirs listdir read ev P _ _ _ _ _ HP Ht)|exact Hc].
  Qed.

  Lemma fge_abs s m e M E : -1074 <= e -> -1074 <= E -> 0 <= M ->
    fge (FFin false M E) (FFin s m e) = true -> fge (FFin s m e) (fneg (FFin false M E)) = true ->
    Z.abs (signum s * (m * 2 ^ (e + 1074))) <= M * 2 ^ (E + 1074).
  Proof.
    intros He HE HM H1 H2. unfold fge in *. cbn [fneg negb] in H2.
    rewrite (flt_units false M E s m e (-1074)) in H1 by assumption.
    rewrite (flt_units s m e true M E (-1074)) in H2 by assumption.
    replace (e - -1074) with (e + 1074) in * by lia. replace (E - -1074) with (E + 1074) in * by lia.
    remember (2 ^ (e + 1074)) as a. remember (2 ^ (E + 1074)) as b.
    unfold signed_mantissa, signum in *. cbv iota in *.
    apply negb_true_iff in H1, H2. apply Z.ltb_ge in H1, H2. clear Heqa Heqb. destruct s; nia.
  Qed.
  Lemma float_range_units n x : (n = 16 \/ n = 32 \/ n = 64)%nat ->
    (forall s m e, x = FFin s m e -> -1074 <= e) -> float_in_range n x = Ok true ->
    exists u, units x = Some u /\ Z.abs u <= float_limit n.
  Proof.
    intros Hn Hx H. unfold float_in_range in H. apply bind_ok in H as (hi & Hhi & H).
    assert (Hb : fge hi x = true /\ fge x (fneg hi) = true) by (apply andb_true_iff; congruence). clear H.
    assert (Hm : exists M E, hi = FFin false M E /\ -1074 <= E /\ 0 <= M /\ M * 2 ^ (E + 1074) = float_limit n).
    { destruct Hn as [->|[->| ->]]; injection Hhi as <-; eexists _, _; (split; [reflexivity|]);
        (split; [lia|]); (split; [lia|]); vm_compute; reflexivity. }
    destruct Hm as (M & E & -> & HE & HM & Hl). destruct Hb as (H1 & H2). destruct x as [|s|s m e].
    - discriminate.
    - destruct s; discriminate.
    - eexists. split; [reflexivity|]. rewrite <- Hl. apply (fge_abs s m e M E); auto. exact (Hx _ _ _ eq_refl).
  Qed.

  Lemma decoded_exponent u s m e : unpack_f64 u = FFin s m e -> -1074 <= e.
  Proof.
    unfold unpack_f64, decode_pattern. intros H.
    pose proof (Z.mod_pos_bound (u / 2 ^ 52) (2 ^ 11) ltac:(lia)) as Hb.
    set (ex := (u / 2 ^ 52) mod 2 ^ 11) in *. clearbody ex.
    destruct (ex =? 2 ^ 11 - 1); [destruct (u mod 2 ^ 52 =? 0); discriminate|].
    apply (f_equal (fun x => match x with FFin _ _ e => e | _ => 0 end)) in H.
    destruct (Z.eqb_spec ex 0) as [E0|E0]; cbv beta iota in H; lia.
  Qed.

  Definition range_slack (c : constant) : Z :=
    match k_type c with KInt => if (54 <=? k_bits c)%nat then 1 else 0 | _ => 0 end.
  Lemma make_constant_within t nm expr c :
    (forall e x, ev e = Some (VFloat x) -> is_double x) -> legal_type t ->
    make_constant ev t nm expr = Ok c -> const_within (range_slack c) c.
  Proof.
    intros Hev Ht H. unfold make_constant in H. destruct t as [k n cm| | |]; try discriminate.
    apply bind_ok in H as (v & Hv & H). apply bind_ok in H as (ok & Hok & H). apply bind_ok in H as (u & He & H).
    apply enforce_ok in He. subst ok. injection H as <-. unfold const_within, range_slack. cbn [k_type k_bits k_value].
    assert (Hint : k <> KFloat -> exists z lo hi, v = CInt z /\ value_range k n = Ok (lo, hi) /\ lo <= z <= hi).
    { intros Hk. destruct v as [z|x].
      - assert (E : ('(lo, hi) <- value_range k n ;; Ok ((lo <=? z) && (z <=? hi))) = Ok true)
          by (destruct k; [exact Hok|exact Hok|exact Hok|congruence]).
        apply bind_ok in E as ((lo & hi) & E1 & E2). exists z, lo, hi. split; [reflexivity|]. split; [exact E1|].
        injection E2 as E2. lia.
      - destruct k; try discriminate. congruence. }
    assert (Hn : (1 <= n <= 64)%nat) by (inversion Ht; subst; lia).
    destruct k.
    - destruct (Hint ltac:(discriminate)) as (z & lo & hi & -> & E & Hz). exists z, z.
      split; [reflexivity|]. split; [|lia]. assert (n = 1%nat) by (inversion Ht; subst; [reflexivity|intuition discriminate]).
      subst n. cbn [value_range] in E. rewrite unsigned_range_ok in E by lia. injection E as <- <-. cbn [int_fits].
      change (2 ^ Z.of_nat 1) with 2 in *. lia.
    - destruct (Hint ltac:(discriminate)) as (z & lo & hi & -> & E & Hz). exists z, z.
      split; [reflexivity|]. split; [|lia]. cbn [value_range] in E. rewrite unsigned_range_ok in E by exact Hn.
      injection E as <- <-. cbn [int_fits]. lia.
    - destruct (Hint ltac:(discriminate)) as (z & lo & hi & -> & E & Hz). cbn [value_range] in E.
      pose proof (pow2_pos (Z.of_nat n - 1) ltac:(lia)) as Hp. cbn [int_fits].
      destruct (Nat.leb_spec 54 n) as [Hb|Hb].
      + rewrite signed_range_big in E by lia. unfold int_lo, int_hi in E. injection E as <- <-.
        exists z, (Z.max (- 2 ^ (Z.of_nat n - 1)) (Z.min z (2 ^ (Z.of_nat n - 1) - 1))).
        split; [reflexivity|]. remember (2 ^ (Z.of_nat n - 1)) as q. lia.
      + rewrite signed_range_small in E by lia. unfold int_lo, int_hi in E. injection E as <- <-.
        exists z, z. split; [reflexivity|]. lia.
    - assert (Hf : (n = 16 \/ n = 32 \/ n = 64)%nat) by (inversion Ht; subst; [intuition discriminate|assumption]).
      destruct v as [z|x]; cbn [const_units].
      + destruct (float_range_units n (FFin (z <? 0) (Z.abs z) 0) Hf) as (u' & Eu & Hu); [|exact Hok|].
        { intros s m e E. apply (f_equal (fun x => match x with FFin _ _ e => e | _ => 0 end)) in E.
          cbv beta iota in E. lia. }
        exists u'. split; [|exact Hu]. rewrite <- Eu. cbn [units]. f_equal. unfold signum.
        change (0 + 1074) with 1074. remember (2 ^ 1074) as q. destruct (Z.ltb_spec z 0); lia.
      + apply (float_range_units n x Hf); [|exact Hok]. intros s m e ->.
        destruct (ev _) as [[l|z|x|]|] eqn:Ee; try discriminate.
        * destruct l as [|? [|? ?]]; discriminate.
        * apply bind_ok in Hv as (y & Hy & Hv). injection Hv as ->. unfold float_of_int in Hy.
          apply bind_ok in Hy as (p & _ & Hy). injection Hy as Hy. exact (decoded_exponent _ _ _ _ Hy).
        * apply Hev in Ee. injection Hv as ->. cbn in Ee. lia.
  Qed.

  Lemma constants_within n fn d c :
    (forall e x, ev e = Some (VFloat x) -> is_double x) ->
    parse n fn = Ok d -> In c (flat_map p_consts (parts (d_body d))) -> const_within (range_slack c) c.
  Proof.
    intros Hev H Hc. destruct n as [|n]; [discriminate|]. cbn [Parser.parse] in H.
    destruct (read fn) as [source|]; [|discriminate]. apply refuse_ok in H.
    apply (parse_source_each (parse n) fn (fun _ => True) (fun c => const_within (range_slack c) c)) in H.
    - apply in_flat_map in Hc as (p & Hp & Hc). rewrite Forall_forall in H. destruct (H p Hp) as (_ & Hk).
      rewrite Forall_forall in Hk. now apply Hk.
    - intros tokens a Ha. destruct a as [f|k]; [exact I|].
      apply parse_line_const in Ha as (t & nm & expr & Ht & Hm); [|apply parse_sound].
      exact (make_constant_within _ _ _ _ Hev Ht Hm).
  Qed.

  (** ** Nesting *)

  (** The message types in a type. *)
  Inductive sub (x : ptype) : ptype -> Prop :=
  | sub_here nm u fs ov : x = QMsg nm u fs ov -> sub x (QMsg nm u fs ov)
  | sub_array dyn et mx : sub x et -> sub x (QArr dyn et mx)
  | sub_field nm u fs ov f : In f fs -> sub x (snd f) -> sub x (QMsg nm u fs ov).
  Lemma inside_sub nm t : inside nm t -> exists u fs ov, sub (QMsg nm u fs ov) t.
  Proof.
    induction 1 as [u fs ov|dyn et mx H (u & fs & ov & IH)|nm' u' fs' ov' f Hf H (u & fs & ov & IH)].
    - exists u, fs, ov. now constructor.
    - exists u, fs, ov. now constructor.
    - exists u, fs, ov. now apply sub_field with f.
  Qed.
  Fixpoint psize (t : ptype) : nat :=
    match t with
    | QPrim _ _ _ | QVoid _ => 1
    | QArr _ et _ => S (psize et)
    | QMsg _ _ fs _ => S (list_sum (map (fun f => psize (snd f)) fs))
    end.
  Lemma psize_field (f : field) fs : In f fs -> (psize (snd f) <= list_sum (map (fun f : field => psize (snd f)) fs))%nat.
  Proof.
    induction fs as [|g fs IH]; [intros []|]. intros H. cbn [map list_sum fold_right]. 
    change (fold_right Nat.add 0%nat ?l) with (list_sum l). destruct H as [->|H]; [lia|]. apply IH in H. lia.
  Qed.
  Lemma sub_size x t : sub x t -> (psize x <= psize t)%nat.
  Proof.
    induction 1 as [nm u fs ov ->|dyn et mx H IH|nm u fs ov f Hf H IH]; [lia|cbn [psize]; lia|].
    apply psize_field in Hf. apply le_S. exact (Nat.le_trans _ _ _ IH Hf).
  Qed.

  (** Every one of them is what some file defines. *)
  Definition own_type (d : definition) (x : ptype) : Prop :=
    exists p, d_body d = Message p /\ x = QMsg (d_name d) (p_union p) (p_fields p) (d_override d).
  Definition parsed (x : ptype) : Prop := exists n fn d, parse n fn = Ok d /\ own_type d x.

  Lemma parse_type_subs n fuel fn td cast t :
    (forall fn d f x, parse n fn = Ok d -> In f (fields_of d) -> sub x (snd f) -> parsed x) ->
    parse_type (parse n) fuel fn td cast = Ok t -> forall x, sub x t -> parsed x.
  Proof.
    intros Hn. revert td t. induction fuel as [|f IH]; intros td t H x Hx; [discriminate|].
    cbn [Parser.parse_type] in H.
    destruct (void_match _) as [m|].
    { apply parse_void_legal in H as (_ & (m' & ->)). inversion Hx. }
    destruct (array_match _) as [[vt size]|].
    { apply bind_ok in H as (et & He & H). apply (parse_array_spec listdir read ev) in H as (dyn & mx & -> & _ & _).
      assert (Hs : sub x et) by (inversion Hx; assumption). exact (IH _ _ He _ Hs). }
    destruct (primitive_match _) as [[base m]|].
    { apply (parse_primitive_legal listdir read ev) in H as (_ & k & m' & cm & ->). inversion Hx. }
    apply bind_ok in H as (u & _ & H). apply bind_ok in H as (fn' & _ & H).
    apply bind_ok in H as (d & Hd & H). destruct (d_body d) as [p|] eqn:Eb; [|discriminate].
    assert (E : t = QMsg (d_name d) (p_union p) (p_fields p) (d_override d)) by congruence. subst t.
    inversion Hx as [nm' u' fs' ov' Ex|?|nm' u' fs' ov' g Hg Hs]; subst.
    - exists n, fn', d. split; [exact Hd|]. exists p. now split.
    - apply (Hn fn' d g x Hd); [|exact Hs]. unfold fields_of. rewrite Eb. cbn [parts flat_map]. now rewrite app_nil_r.
  Qed.
  Lemma nested_parsed n fn d f x : parse n fn = Ok d -> In f (fields_of d) -> sub x (snd f) -> parsed x.
  Proof.
    revert fn d f x. induction n as [|n IH]; intros fn d f x H Hf Hx; [discriminate|]. cbn [Parser.parse] in H.
    destruct (read fn) as [source|]; [|discriminate]. apply refuse_ok in H.
    apply (parse_source_each (parse n) fn (fun f => forall x, sub x (snd f) -> parsed x) (fun _ => True)) in H.
    - apply in_flat_map in Hf as (p & Hp & Hf). rewrite Forall_forall in H. destruct (H p Hp) as (HF & _).
      rewrite Forall_forall in HF. exact (HF f Hf x Hx).
    - intros tokens a Ha. destruct a as [g|c]; [|exact I]. unfold Parser.parse_line in Ha.
      destruct (match tokens with [] => _ | _ => _ end) as [cast toks].
      destruct toks as [|ty [|nm rest]]; [discriminate| |].
      + destruct (starts_with (txt "void") ty); [|discriminate]. apply bind_ok in Ha as (t & Ht & Ha).
        injection Ha as <-. exact (parse_type_subs _ _ _ _ _ _ IH Ht).
      + apply bind_ok in Ha as ([] & _ & Ha). apply bind_ok in Ha as (t & Ht & Ha).
        destruct rest as [|eq expr]; [injection Ha as <-; exact (parse_type_subs _ _ _ _ _ _ IH Ht)|].
        destruct (nonempty expr && text_eqb eq (txt "=")); [|discriminate].
        apply bind_ok in Ha as (c & _ & Ha). discriminate.
  Qed.

  Lemma read_some n fn d : parse n fn = Ok d -> read fn <> None.
  Proof. destruct n; cbn [Parser.parse]; [discriminate|]. destruct (read fn); [discriminate|discriminate]. Qed.

  Lemma same_file n m fn d d' : parse n fn = Ok d -> parse m fn = Ok d' -> same_but_constants d d'.
  Proof.
    apply parse_same. intros f. destruct (read f) as [s|]; [|exact I].
    destruct (code_self (map (fun line => words (strip_comment line)) (splitlines s))) as (C & HC).
    eexists _, _, C. split; [apply every_text_written|]. split; [apply every_text_written|]. now split.
  Qed.

  Lemma not_inside_itself n fn d f :
    (forall fn fn' nm v id v' id', name_from_filename fn = Ok (nm, v, id) -> name_from_filename fn' = Ok (nm, v', id') ->
       read fn <> None -> read fn' <> None -> fn = fn') ->
    parse n fn = Ok d -> In f (fields_of d) -> ~ inside (d_name d) (snd f).
  Proof.
    intros Hone H Hf Hin. apply inside_sub in Hin as (u & fs & ov & Hs).
    pose proof (sub_size _ _ Hs) as Hz.
    destruct (nested_parsed _ _ _ _ _ H Hf Hs) as (m & fn' & d' & Hd' & p & Eb & Ex).
    injection Ex as En -> -> ->.
    destruct (parse_sound _ _ _ _ _ _ _ H) as (_ & v & id & Hn).
    destruct (parse_sound _ _ _ _ _ _ _ Hd') as (_ & v' & id' & Hn').
    rewrite <- En in Hn'. assert (fn = fn') by (eapply Hone; eauto using read_some). subst fn'.
    destruct (same_file _ _ _ _ _ H Hd') as (_ & _ & _ & _ & Hb).
    rewrite Eb in Hb. destruct (d_body d) as [q|] eqn:Eq; [|destruct Hb]. destruct Hb as (_ & Ef).
    unfold fields_of in Hf. rewrite Eq in Hf. cbn [parts flat_map] in Hf. rewrite app_nil_r in Hf.
    apply psize_field in Hf. rewrite Ef in Hf. apply (Nat.le_trans _ _ _ Hz) in Hf.
    exact (Nat.nle_succ_diag_l _ Hf).
  Qed.

  (** ** Data type ids *)

  Lemma key_eqb_eq a b : key_eqb a b = true <-> a = b.
  Proof.
    unfold key_eqb. destruct a as [a1 a2], b as [b1 b2]. cbn [fst snd]. split.
    - intros H. apply andb_true_iff in H as (H1 & H2). apply Bool.eqb_prop in H1. apply Z.eqb_eq in H2. congruence.
    - intros E. injection E as -> ->. rewrite Bool.eqb_reflx, Z.eqb_refl. reflexivity.
  Qed.
  Definition key_of (d : definition) (k : dtid_key) : Prop :=
    d_dtid d = Some (snd k) /\ is_service (d_body d) = fst k.
  (** [seen] has an entry for each id in [ds], of the same signature. *)
  Definition covers (seen : list (dtid_key * definition)) (ds : list definition) : Prop :=
    forall d k, In d ds -> key_of d k ->
      exists d0, dget key_eqb seen k = Some d0 /\ d_signature d0 = d_signature d.
  Lemma ensure_unique_covers seen d seen' ds : ensure_unique seen d = Ok seen' -> covers seen ds ->
    covers seen' (d :: ds) /\ (forall ds', covers seen ds' -> covers seen' ds').
  Proof.
    unfold ensure_unique. intros H Hc.
    assert (Hold : forall ds', covers seen ds' -> covers seen' ds').
    { intros ds' Hd' x k Hx Hk. destruct (Hd' x k Hx Hk) as (d0 & E & Es). destruct (d_dtid d) as [z|].
      - destruct (dget key_eqb seen (is_service (d_body d), z)) as [d1|] eqn:Eg.
        + apply bind_ok in H as (u & _ & H). injection H as <-. eauto.
        + injection H as <-. exists d0. split; [|exact Es]. rewrite (dget_dset_other _ key_eqb_eq); [exact E|]. congruence.
      - injection H as <-. eauto. }
    split; [|exact Hold]. intros x k [<-|Hx] Hk; [|exact (Hold ds Hc x k Hx Hk)].
    destruct Hk as (K1 & K2). rewrite K1, K2 in H. destruct k as [sv z]. cbn [fst snd] in *.
    destruct (dget key_eqb seen (sv, z)) as [d1|] eqn:Eg.
    - apply bind_ok in H as (u & He & H). apply enforce_ok in He. injection H as <-. exists d1. split; [exact Eg|lia].
    - injection H as <-. exists d. split; [apply (dget_dset_same _ key_eqb_eq)|reflexivity].
  Qed.
  Notation parse_files := (parse_files search_dirs listdir read ev).
  Notation parse_namespaces := (parse_namespaces search_dirs listdir read ev).
  Lemma parse_files_covers depth files seen ds seen' old : parse_files depth seen files = Ok (ds, seen') ->
    covers seen old ->
    Forall2 (fun fn d => parse depth fn = Ok d) files ds /\ covers seen' (ds ++ old).
  Proof.
    revert seen ds old. induction files as [|fn files IH]; intros seen ds old H Hc; cbn [Parser.parse_files] in H.
    - injection H as <- <-. split; [constructor|exact Hc].
    - apply bind_ok in H as (d & Hd & H). apply bind_ok in H as (s1 & Hs & H).
      apply bind_ok in H as ((ds1 & s2) & Hr & H). injection H as <- <-.
      apply ensure_unique_covers with (ds := old) in Hs as (H1 & _); [|exact Hc].
      destruct (IH _ _ _ Hr H1) as (F & C). split; [now constructor|].
      intros x k Hx. apply (C x k). apply in_app_or in Hx. cbn [In] in Hx. apply in_or_app. cbn [In].
      destruct Hx as [[H|H]|H]; auto.
  Qed.
  Lemma namespaces_consistent depth search source ds : parse_namespaces depth search source = Ok ds ->
    exists others,
      Forall2 (fun fn d => parse depth fn = Ok d) search others /\
      Forall2 (fun fn d => parse depth fn = Ok d) source ds /\
      forall d1 d2 z, In d1 (ds ++ others) -> In d2 (ds ++ others) ->
        is_service (d_body d1) = is_service (d_body d2) -> d_dtid d1 = Some z -> d_dtid d2 = Some z ->
        d_signature d1 = d_signature d2.
  Proof.
    unfold Parser.parse_namespaces. intros H. apply bind_ok in H as ((others & s1) & H1 & H).
    apply bind_ok in H as ((ds' & s2) & H2 & H). injection H as <-.
    apply parse_files_covers with (old := []) in H1 as (F1 & C1); [|intros d k []].
    apply parse_files_covers with (old := others ++ []) in H2 as (F2 & C2); [|exact C1].
    rewrite app_nil_r in C2. exists others. split; [exact F1|]. split; [exact F2|].
    intros d1 d2 z I1 I2 Ek E1 E2.
    destruct (C2 d1 (is_service (d_body d1), z) I1) as (a & Ea & Sa); [now split|].
    destruct (C2 d2 (is_service (d_body d1), z) I2) as (b & Eb & Sb); [now split|]. congruence.
  Qed.
End Attributes.

(** ** Loading *)

Lemma load_app t a b : load t (a ++ b) = load (load t a) b.
Proof. apply fold_left_app. Qed.

Lemma load_names t ds nm :
  match dget text_eqb (t_names (load t ds)) nm with
  | Some d => (In d ds /\ d_name d = nm) \/
              (~ In nm (map d_name ds) /\ dget text_eqb (t_names t) nm = Some d)
  | None => ~ In nm (map d_name ds)
  end.
Proof.
  induction ds as [|d ds IH] using rev_ind.
  - cbn [load fold_left map In]. destruct (dget text_eqb (t_names t) nm); tauto.
  - rewrite load_app. cbn [load fold_left load_one t_names]. fold (load t ds). rewrite map_app. cbn [map].
    destruct (list_eq_dec N.eq_dec (d_name d) nm) as [E|E].
    + rewrite E, (dget_dset_same _ text_eqb_eq). left. split; [apply in_or_app; right; now left|exact E].
    + rewrite (dget_dset_other _ text_eqb_eq) by exact E. 
      assert (Hn : In nm (map d_name ds ++ [d_name d]) <-> In nm (map d_name ds)).
      { rewrite in_app_iff. cbn [In]. tauto. }
      destruct (dget text_eqb (t_names (load t ds)) nm) as [d'|]; [|now rewrite Hn].
      destruct IH as [(Hd & En)|(IH1 & IH2)]; [left; split; [apply in_or_app; now left|exact En]|].
      right. split; [now rewrite Hn|exact IH2].
Qed.

Lemma load_ids t ds sv z : z <> 0 ->
  match dget key_eqb (t_ids (load t ds)) (sv, z) with
  | Some d => (In d ds /\ d_dtid d = Some z /\ is_service (d_body d) = sv) \/
              ((forall d, In d ds -> d_dtid d = Some z -> is_service (d_body d) <> sv) /\
               dget key_eqb (t_ids t) (sv, z) = Some d)
  | None => forall d, In d ds -> d_dtid d = Some z -> is_service (d_body d) <> sv
  end.
Proof.
  intros Hz. induction ds as [|d ds IH] using rev_ind.
  - cbn [load fold_left In]. destruct (dget key_eqb (t_ids t) (sv, z)); [right|]; intuition.
  - rewrite load_app. cbn [load fold_left load_one t_ids]. fold (load t ds).
    assert (Hsame : ~ (d_dtid d = Some z /\ is_service (d_body d) = sv) ->
      match dget key_eqb (t_ids (load t ds)) (sv, z) with
      | Some d' => (In d' (ds ++ [d]) /\ d_dtid d' = Some z /\ is_service (d_body d') = sv) \/
              ((forall d', In d' (ds ++ [d]) -> d_dtid d' = Some z -> is_service (d_body d') <> sv) /\
               dget key_eqb (t_ids t) (sv, z) = Some d')
      | None => forall d', In d' (ds ++ [d]) -> d_dtid d' = Some z -> is_service (d_body d') <> sv
      end).
    { intros Hno. assert (Hall : (forall d', In d' ds -> d_dtid d' = Some z -> is_service (d_body d') <> sv) ->
        forall d', In d' (ds ++ [d]) -> d_dtid d' = Some z -> is_service (d_body d') <> sv).
      { intros H d' Hd'. apply in_app_or in Hd' as [Hd'|[<-|[]]]; [now apply H|]. intros E1 E2. apply Hno. now split. }
      destruct (dget key_eqb (t_ids (load t ds)) (sv, z)) as [d'|]; [|now apply Hall].
      destruct IH as [(H1 & H2)|(H1 & H2)]; [left; split; [apply in_or_app; now left|exact H2]|right; split; [now apply Hall|exact H2]]. }
    destruct (d_dtid d) as [z'|] eqn:Ed; [|apply Hsame; intros (K & _); discriminate].
    destruct (Z.eqb_spec z' 0) as [->|Hz']; [apply Hsame; intros (K & _); congruence|].
    destruct (key_eqb (is_service (d_body d), z') (sv, z)) eqn:Ek.
    + apply key_eqb_eq in Ek. injection Ek as Es ->. rewrite Es. rewrite (dget_dset_same _ key_eqb_eq).
      left. split; [apply in_or_app; right; now left|]. now split.
    + rewrite (dget_dset_other _ key_eqb_eq).
      * apply Hsame. intros (K1 & K2). injection K1 as ->. rewrite K2 in Ek.
        assert (E : key_eqb (sv, z) (sv, z) = true) by now apply key_eqb_eq. congruence.
      * intros E. apply key_eqb_eq in E. congruence.
Qed.
