(** Signatures: the computed values are the specified ones. *)
From Coq Require Import String.
From Verif.Base Require Import Prelude Bits.
From Verif.Model Require Import Types Slcan Crc Parser.
From Verif.Spec Require Import CrcSpec ParserSpec SignatureSpec.
From Verif.Proofs Require Import ShiftReg CrcFacts ParserText ParserFacts ParserNorm SignatureText.
Open Scope list_scope.
Open Scope N_scope.

(** ** One value *)
Lemma add_remainder x data : byte_string data -> x < 2 ^ 64 ->
  premainder 64 (2 ^ 64 + POLY64)
    (N.lxor (N.shiftl x (8 * N.of_nat (length data))) (N.shiftl (be_number data) 64)) (sig_add x data).
Proof.
  intros H Hx. rewrite sig_add_reg by assumption. rewrite be_number_bits by exact H.
  pose proof (reg_remainder 64 POLY64 ltac:(lia) (proj1 poly64_ok) x (bit_string data) Hx) as Hr.
  rewrite bit_string_length in Hr.
  replace (N.of_nat (8 * length data)) with (8 * N.of_nat (length data)) in Hr by lia. exact Hr.
Qed.
Lemma value_state x : x < 2 ^ 64 -> N.lxor (sig_value x) (N.ones 64) = x.
Proof.
  intros Hx. unfold sig_value. change MASK64 with (N.ones 64). rewrite N.land_ones, N.mod_small by exact Hx.
  rewrite N.lxor_assoc, N.lxor_nilpotent. apply N.lxor_0_r.
Qed.
Lemma sig_value_lt x : x < 2 ^ 64 -> sig_value x < 2 ^ 64.
Proof. intros Hx. unfold sig_value. apply lxor_mask. exact Hx. Qed.
Lemma hashed_state x data : byte_string data -> x < 2 ^ 64 -> hashed (sig_value x) data (sig_value (sig_add x data)).
Proof.
  intros H Hx. unfold hashed. rewrite !value_state by (try apply sig_add_lt; assumption). apply add_remainder; assumption.
Qed.
Lemma hashed_fun v data w w' : hashed v data w -> hashed v data w' -> w = w'.
Proof.
  unfold hashed. intros H H'.
  assert (E : N.lxor w (N.ones 64) = N.lxor w' (N.ones 64)).
  { revert H H'. apply (remainder_unique 64 POLY64); [lia|apply poly64_ok]. }
  apply (f_equal (fun x => N.lxor x (N.ones 64))) in E. rewrite !N.lxor_assoc, N.lxor_nilpotent, !N.lxor_0_r in E. exact E.
Qed.

(** ** Bytes *)
Lemma crc64_bytes v : v < 2 ^ 64 -> le64 v (bytes_from_crc64 v).
Proof.
  intros Hv. split; [reflexivity|]. split; [|apply crc64_bytes_value; exact Hv].
  apply Forall_map. apply Forall_forall. intros i _. change 0xFF with (N.ones 8). rewrite N.land_ones. apply N.mod_lt. discriminate.
Qed.
Lemma le_fun (a b : list N) : length a = length b -> byte_string a -> byte_string b ->
  fold_right (fun x acc => x + 256 * acc) 0 a = fold_right (fun x acc => x + 256 * acc) 0 b -> a = b.
Proof.
  revert b. induction a as [|x a IH]; intros [|y b] Hl Ha Hb E; try discriminate; [reflexivity|].
  apply Forall_cons_iff in Ha as (Hx & Ha). apply Forall_cons_iff in Hb as (Hy & Hb). cbn [fold_right length] in *.
  rewrite (IH b); [|lia|assumption..|lia]. f_equal. lia.
Qed.
Lemma le64_fun v a b : le64 v a -> le64 v b -> a = b.
Proof. intros (H1 & H2 & H3) (H4 & H5 & H6). apply le_fun; congruence || assumption. Qed.
Lemma le64_bytes v b : v < 2 ^ 64 -> le64 v b -> b = bytes_from_crc64 v.
Proof. intros Hv H. eapply le64_fun; [exact H|]. apply crc64_bytes. exact Hv. Qed.

(** ** Chains *)
Definition mix (x : N) (o : option N) : N :=
  match o with
  | Some s => sig_add (sig_add x (bytes_from_crc64 s)) (bytes_from_crc64 (sig_value x))
  | None => x
  end.
Definition small_sig (o : option N) : Prop := forall s, o = Some s -> s < 2 ^ 64.
Lemma mix_lt x o : x < 2 ^ 64 -> small_sig o -> mix x o < 2 ^ 64.
Proof.
  intros Hx Ho. destruct o as [s|]; [|exact Hx]. cbn [mix].
  apply sig_add_lt; [apply crc64_bytes; apply sig_value_lt; exact Hx|].
  apply sig_add_lt; [apply crc64_bytes; apply Ho; reflexivity|exact Hx].
Qed.
Lemma mixes_lt sigs x : x < 2 ^ 64 -> Forall small_sig sigs -> fold_left mix sigs x < 2 ^ 64.
Proof.
  intros Hx H. revert x Hx. induction H as [|o l Ho H IH]; intros x Hx; [exact Hx|]. cbn [fold_left]. apply IH, mix_lt; assumption.
Qed.
Lemma sig_add_app x a b : sig_add x (a ++ b) = sig_add (sig_add x a) b.
Proof. unfold sig_add. apply fold_left_app. Qed.
Lemma chained_state sigs x : x < 2 ^ 64 -> Forall small_sig sigs -> chained (sig_value x) sigs (sig_value (fold_left mix sigs x)).
Proof.
  intros Hx H. revert x Hx. induction H as [|o l Ho H IH]; intros x Hx; [constructor|]. cbn [fold_left].
  destruct o as [s|]; [|constructor; apply IH; exact Hx].
  assert (Hs : s < 2 ^ 64) by (apply Ho; reflexivity).
  eapply chain_nested; [apply crc64_bytes; exact Hs|apply crc64_bytes, sig_value_lt; exact Hx| |].
  - apply hashed_state; [|exact Hx]. apply bytes_app; [apply crc64_bytes; exact Hs|apply crc64_bytes, sig_value_lt; exact Hx].
  - assert (E : sig_add x (bytes_from_crc64 s ++ bytes_from_crc64 (sig_value x)) = mix x (Some s)) by (cbn [mix]; apply sig_add_app).
    rewrite E. apply IH. apply mix_lt; assumption.
Qed.
Lemma chained_fun v sigs w w' : chained v sigs w -> chained v sigs w' -> w = w'.
Proof.
  intros H. revert w'. induction H as [v|v l w H IH|v s b c l v' w Hb Hc Hh H IH]; intros w' H'; inversion H'; subst; auto.
  match goal with H1 : le64 s ?b', H2 : le64 v ?c', H3 : hashed v (?b' ++ ?c') ?v2 |- _ =>
    assert (b' = b) by (eapply le64_fun; eassumption); assert (c' = c) by (eapply le64_fun; eassumption); subst b' c';
    assert (v2 = v') by (eapply hashed_fun; eassumption); subst v2 end. auto.
Qed.
Lemma start_value z : Z.to_N (Z.land z (Z.of_N MASK64)) = Z.to_N (z mod 2 ^ 64) /\ Z.to_N (z mod 2 ^ 64) < 2 ^ 64.
Proof.
  change (Z.of_N MASK64) with (Z.ones 64). rewrite Z.land_ones by lia. split; [reflexivity|].
  pose proof (Z.mod_pos_bound z (2 ^ 64) ltac:(lia)). lia.
Qed.
Lemma value_init v : v < 2 ^ 64 -> sig_value (sig_init (Some v)) = v /\ sig_init (Some v) < 2 ^ 64.
Proof.
  intros Hv. unfold sig_value, sig_init. change MASK64 with (N.ones 64).
  rewrite (N.land_ones v), (N.mod_small v) by exact Hv.
  assert (H : N.lxor v (N.ones 64) < 2 ^ 64) by (apply lxor_lt; [exact Hv|reflexivity]).
  rewrite N.land_ones, N.mod_small by exact H. rewrite N.lxor_assoc, N.lxor_nilpotent, N.lxor_0_r. auto.
Qed.
Lemma extend_mix start sigs : extend_signature start sigs =
  sig_value (fold_left mix sigs (sig_init (Some (Z.to_N (start mod 2 ^ 64))))).
Proof. unfold extend_signature. rewrite (proj1 (start_value start)). reflexivity. Qed.
Lemma extend_chained start sigs : Forall small_sig sigs ->
  chained (Z.to_N (start mod 2 ^ 64)) sigs (extend_signature start sigs).
Proof.
  intros H. rewrite extend_mix. destruct (value_init (Z.to_N (start mod 2 ^ 64)) (proj2 (start_value start))) as (E & Hlt).
  rewrite <- E at 1. apply chained_state; assumption.
Qed.
Lemma extend_lt start sigs : Forall small_sig sigs -> extend_signature start sigs < 2 ^ 64.
Proof.
  intros H. rewrite extend_mix. apply sig_value_lt, mixes_lt; [|exact H]. apply value_init. apply start_value.
Qed.

(** ** Definitions *)
Lemma own_is name b ov : full_type_name name -> Forall good_part (parts b) ->
  own_signature name b ov (Z.to_N (dsdl_signature name b ov mod 2 ^ 64)).
Proof.
  intros Hn Hb. unfold dsdl_signature. destruct ov as [z|].
  - apply own_given. pose proof (Z.mod_pos_bound z (2 ^ 64) ltac:(lia)). lia.
  - pose proof (source_is_text name b Hn Hb) as Ht. pose proof (definition_text_bytes name b _ Hn Hb Ht) as Hbytes.
    pose proof (sig_range _ Hbytes) as Hr. rewrite Z.mod_small by lia. rewrite N2Z.id.
    apply own_hashed with (s := source_definition name b); [exact Ht|].
    change 0 with (sig_value (sig_init None)). apply hashed_state; [exact Hbytes|reflexivity].
Qed.
Lemma own_fun name b ov v v' : own_signature name b ov v -> own_signature name b ov v' -> v = v'.
Proof.
  intros H H'. destruct H as [z v H|s v Ht H]; inversion H' as [? ? H2|s2 ? Ht2 H2]; subst; [lia|].
  rewrite (definition_text_fun _ _ _ _ Ht Ht2) in H. eapply hashed_fun; eassumption.
Qed.

Lemma type_signature_small t : small_sig (type_signature t).
Proof.
  induction t as [k n cm|n|dyn et mx IH|nm u fs ov IH] using ptype_ind'; cbn [type_signature]; [discriminate|discriminate|exact IH|].
  intros s E. injection E as <-. apply extend_lt. apply Forall_map. exact IH.
Qed.
Lemma fields_good fs : names_ok fs -> Forall (fun f => legal_type (snd f)) fs -> Forall field_good fs.
Proof.
  intros (_ & Hn & Hv) Ht. apply Forall_forall. intros f Hf. rewrite Forall_forall in Hv, Ht. split; [split; auto|].
  intros nm E. rewrite Forall_forall in Hn. apply Hn. clear - Hf E.
  induction fs as [|[[a|] t] fs IH]; [destruct Hf| |].
  - cbn [field_names]. destruct Hf as [<-|Hf]; [left; cbn in E; congruence|right; auto].
  - cbn [field_names]. destruct Hf as [<-|Hf]; [discriminate E|auto].
Qed.
Lemma type_hash_is t : legal_type t -> type_hash t (type_signature t).
Proof.
  induction t as [k n cm|n|dyn et mx IH|nm u fs ov IH] using ptype_ind'; intros L; cbn [type_signature]; [constructor|constructor|..].
  - inversion L; subst. constructor. apply IH. assumption.
  - inversion L as [| | | | |? ? ? ? Hnm Hnames Hu Hf]; subst.
    eapply hash_message; [apply own_is; [exact Hnm|constructor; [|constructor]]| |apply extend_chained].
    + apply fields_good; assumption.
    + clear - IH Hf. induction fs as [|f fs IHfs]; [constructor|]. apply Forall_cons_iff in IH as (H1 & H2).
      apply Forall_cons_iff in Hf as (H3 & H4). cbn [map]. constructor; auto.
    + apply Forall_map. apply Forall_forall. intros f _. apply type_signature_small.
Qed.
Lemma type_hash_fun t o o' : type_hash t o -> type_hash t o' -> o = o'.
Proof.
  revert o o'. induction t as [k n cm|n|dyn et mx IH|nm u fs ov IH] using ptype_ind'; intros o o' H H'.
  - inversion H. inversion H'. reflexivity.
  - inversion H. inversion H'. reflexivity.
  - inversion H. inversion H'. subst. auto.
  - inversion H as [| | |? ? ? ? v sigs w Hv Hs Hw]. inversion H' as [| | |? ? ? ? v' sigs' w' Hv' Hs' Hw']. subst.
    assert (v' = v) by (eapply own_fun; eassumption). subst v'.
    assert (sigs' = sigs).
    { clear - IH Hs Hs'. revert sigs sigs' Hs Hs'. induction fs as [|f fs IHfs]; intros s s' Hs Hs'; inversion Hs; inversion Hs'; subst; [reflexivity|].
      apply Forall_cons_iff in IH as (Hfst & Hrest). f_equal; [eapply Hfst; eassumption|]. eapply IHfs; eassumption. }
    subst sigs'. f_equal. eapply chained_fun; eassumption.
Qed.
Lemma all_fields_eq b : all_fields b = body_fields b.
Proof. destruct b as [p|rq rs]; unfold all_fields; cbn [parts flat_map body_fields]; rewrite app_nil_r; reflexivity. Qed.

Theorem definition_hash_iff d v : legal_definition d -> definition_hash d v <-> v = data_type_signature d.
Proof.
  intros L. pose proof (legal_good d L) as G. destruct L as (Hn & Hp & _).
  assert (H : definition_hash d (data_type_signature d)).
  { unfold data_type_signature. eapply hash_definition; [apply own_is; assumption| |apply extend_chained].
    - rewrite all_fields_eq.
      assert (Ht : Forall (fun f => legal_type (snd f)) (body_fields (d_body d))).
      { destruct (d_body d) as [p|rq rs]; cbn [parts body_fields] in *.
        - apply Forall_inv in Hp. apply Hp.
        - apply Forall_cons_iff in Hp as (H1 & H2). apply Forall_inv in H2. apply Forall_app. split; [apply H1|apply H2]. }
      induction Ht as [|f fs Hf Ht IH]; [constructor|]. cbn [map]. constructor; [apply type_hash_is; exact Hf|exact IH].
    - apply Forall_map. apply Forall_forall. intros f _. apply type_signature_small. }
  split; [|intros ->; exact H]. intros H'. destruct H as [v1 s1 w1 A1 B1 C1], H' as [v2 s2 w2 A2 B2 C2].
  assert (v1 = v2) by (eapply own_fun; eassumption). subst.
  assert (s1 = s2) by (eapply (Forall2_fun type_hash); [exact type_hash_fun|eassumption|eassumption]). subst.
  eapply chained_fun; eassumption.
Qed.

Theorem own_hash_iff name b v : full_type_name name -> Forall good_part (parts b) ->
  own_signature name b None v <-> v = compute_signature (source_definition name b).
Proof.
  intros Hn Hb. pose proof (own_is name b None Hn Hb) as H. unfold dsdl_signature in H.
  pose proof (sig_range _ (definition_text_bytes name b _ Hn Hb (source_is_text name b Hn Hb))) as Hr.
  rewrite Z.mod_small, N2Z.id in H by lia. split; [|intros ->; exact H]. intros H'. eapply own_fun; eassumption.
Qed.
