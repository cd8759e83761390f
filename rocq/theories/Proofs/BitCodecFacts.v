From Verif.Base Require Import Prelude Bits.
From Verif.Model Require Import BitCodec.

Lemma concat_length_rev {A} (ls : list (list A)) :
  length (concat (rev ls)) = length (concat ls).
Proof.
  induction ls as [|l ls IH]; [reflexivity|].
  cbn [rev concat]. rewrite concat_app, !app_length, IH. cbn [concat].
  rewrite app_nil_r. lia.
Qed.

Lemma le_from_be_exact s n : length s = n ->
  le_from_be_bits s n = Ok (concat (rchunks 8 s)).
Proof.
  intros <-. unfold le_from_be_bits. rewrite Nat.ltb_irrefl. reflexivity.
Qed.

Lemma be_from_le_prefix a b n : length a = n ->
  be_from_le_bits (a ++ b) n = Ok (concat (rev (chunks 8 a))).
Proof.
  intros <-. unfold be_from_le_bits. rewrite app_length.
  replace (length a + length b <? length a) with false
    by (symmetry; apply Nat.ltb_ge; lia).
  destruct (length a <? length a + length b) eqn:E.
  - rewrite firstn_app_exact by reflexivity. reflexivity.
  - apply Nat.ltb_ge in E. assert (length b = 0) as Hb by lia.
    apply length_zero_iff_nil in Hb as ->. rewrite app_nil_r. reflexivity.
Qed.

Lemma rchunks_concat_length (s : bits) : length (concat (rchunks 8 s)) = length s.
Proof.
  rewrite <- concat_length_rev, concat_rev_rchunks by lia. reflexivity.
Qed.

Lemma le_from_be_length s n r : le_from_be_bits s n = Ok r -> length r = n.
Proof.
  unfold le_from_be_bits. destruct (length s <? n) eqn:E; [discriminate|].
  apply Nat.ltb_ge in E. intros [= <-]. rewrite rchunks_concat_length.
  destruct (n <? length s) eqn:E'.
  - rewrite skipn_length. lia.
  - apply Nat.ltb_ge in E'. lia.
Qed.

Lemma be_le_roundtrip s n rest : length s = n ->
  be_from_le_bits (concat (rchunks 8 s) ++ rest) n = Ok s.
Proof.
  intros H. rewrite be_from_le_prefix by (rewrite rchunks_concat_length; exact H).
  rewrite chunks_concat by (try apply chunked_rchunks; lia).
  rewrite concat_rev_rchunks by lia. reflexivity.
Qed.

Lemma le_be_roundtrip s n b : be_from_le_bits s n = Ok b ->
  length b = n /\ le_from_be_bits b n = Ok (firstn n s).
Proof.
  unfold be_from_le_bits. destruct (length s <? n) eqn:E; [discriminate|].
  apply Nat.ltb_ge in E. intros [= <-].
  set (s' := if n <? length s then firstn n s else s).
  assert (s' = firstn n s) as Hs'.
  { unfold s'. destruct (n <? length s) eqn:E'; [reflexivity|].
    apply Nat.ltb_ge in E'. rewrite firstn_all2 by lia. reflexivity. }
  assert (length (concat (rev (chunks 8 s'))) = n) as Hl.
  { rewrite concat_length_rev, concat_chunks by lia. rewrite Hs', firstn_length. lia. }
  split; [exact Hl|].
  rewrite le_from_be_exact by exact Hl.
  rewrite rchunks_concat_rev by (try apply chunked_chunks; lia).
  rewrite concat_chunks by lia. rewrite Hs'. reflexivity.
Qed.

(** ** Bytes and bits *)

Lemma bits_from_bytes_app a b :
  bits_from_bytes (a ++ b) = bits_from_bytes a ++ bits_from_bytes b.
Proof. unfold bits_from_bytes. rewrite map_app, concat_app. reflexivity. Qed.

Definition is_byte (b : N) : Prop := (b < 256)%N.

Lemma bits_from_bytes_length s : Forall is_byte s ->
  length (bits_from_bytes s) = 8 * length s.
Proof.
  induction 1 as [|b s Hb Hs IH]; [reflexivity|].
  change (bits_from_bytes (b :: s)) with (py_format_b 8 b ++ bits_from_bytes s).
  rewrite app_length, IH, py_format_b_fit by (try exact Hb; lia).
  rewrite bits_of_N_length. cbn [length]. lia.
Qed.

Lemma bytes_from_bits_pad s :
  exists k, k < 8 /\ Nat.modulo (length s + k) 8 = 0 /\
    bytes_from_bits s = map N_of_bits (chunks 8 (s ++ repeat false k)).
Proof.
  unfold bytes_from_bits. destruct (Nat.eqb (length s mod 8) 0) eqn:E.
  - exists 0. apply Nat.eqb_eq in E. rewrite Nat.add_0_r.
    cbn [repeat]. rewrite app_nil_r. repeat split; lia.
  - apply Nat.eqb_neq in E. exists (8 - length s mod 8). repeat split; lia.
Qed.

Lemma chunks_full n (s : list bool) : 0 < n -> Nat.modulo (length s) n = 0 ->
  Forall (fun c => length c = n) (chunks n s).
Proof.
  intros Hn. induction s as [|s Hs IH] using (chunks_ind n Hn); intros Hm.
  - constructor.
  - rewrite chunks_cons by assumption.
    assert (length s <> 0) as Hl by (destruct s; [congruence|discriminate]).
    assert (n <= length s) as Hge.
    { destruct (le_lt_dec n (length s)) as [|Hlt]; [assumption|].
      rewrite Nat.mod_small in Hm by exact Hlt. lia. }
    constructor.
    + rewrite firstn_length. lia.
    + apply IH. rewrite skipn_length.
      rewrite <- (Nat.mod_add _ 1 n) by lia.
      rewrite Nat.mul_1_l. replace (length s - n + n) with (length s) by lia.
      exact Hm.
Qed.

Lemma bytes_from_bits_spec s :
  exists k, k < 8 /\ bits_from_bytes (bytes_from_bits s) = s ++ repeat false k.
Proof.
  destruct (bytes_from_bits_pad s) as (k & Hk & Hm & ->). exists k. split; [exact Hk|].
  set (p := s ++ repeat false k).
  assert (Forall (fun c => length c = 8) (chunks 8 p)) as Hf.
  { apply chunks_full; [lia|]. unfold p. rewrite app_length, repeat_length. exact Hm. }
  unfold bits_from_bytes. rewrite map_map.
  rewrite (map_ext_in _ (fun c => c)).
  - rewrite map_id. apply concat_chunks. lia.
  - intros c Hc. rewrite Forall_forall in Hf. specialize (Hf c Hc).
    rewrite py_format_b_fit.
    + rewrite <- Hf at 1. apply bits_of_N_of_bits.
    + lia.
    + pose proof (N_of_bits_lt c) as H. rewrite Hf in H. exact H.
Qed.

Lemma bytes_from_bits_bytes s : Forall is_byte (bytes_from_bits s).
Proof.
  destruct (bytes_from_bits_pad s) as (k & Hk & Hm & ->).
  apply Forall_map. apply Forall_forall. intros c Hc.
  assert (length c <= 8) as Hl by (eapply chunks_length_le; [|exact Hc]; lia).
  unfold is_byte. pose proof (N_of_bits_lt c) as H.
  assert (2 ^ N.of_nat (length c) <= 2 ^ 8)%N by (apply N.pow_le_mono_r; lia).
  change (2 ^ 8)%N with 256%N in *. lia.
Qed.

(** ** Widths *)

Lemma array_len_bits_fit mx n : n <= mx ->
  (N.of_nat n < 2 ^ N.of_nat (array_len_bits_from_max_size mx))%N.
Proof.
  intros H. unfold array_len_bits_from_max_size. rewrite N2Nat.id.
  destruct mx as [|mx].
  - replace n with 0 by lia. cbn. lia.
  - pose proof (N.log2_log2_up_exact (N.of_nat (S mx) + 1)) as _.
    pose proof (N.log2_up_spec (N.of_nat (S mx) + 1)) as Hs. lia.
Qed.

Lemma array_len_bits_pos mx : 1 <= mx -> 0 < array_len_bits_from_max_size mx.
Proof.
  intros H. unfold array_len_bits_from_max_size.
  assert (0 < N.log2_up (N.of_nat mx + 1))%N by (apply N.log2_up_pos; lia). lia.
Qed.

Lemma union_tag_bits_fit n i : i < n ->
  (N.of_nat i < 2 ^ N.of_nat (union_tag_bits_from_num_elements n))%N.
Proof.
  intros H. unfold union_tag_bits_from_num_elements. rewrite N2Nat.id.
  destruct (Nat.eq_dec n 1) as [->|Hn].
  - replace i with 0 by lia. cbn. lia.
  - pose proof (N.log2_up_spec (N.of_nat n)) as Hs. lia.
Qed.

Lemma union_tag_bits_pos n : 2 <= n -> 0 < union_tag_bits_from_num_elements n.
Proof.
  intros H. unfold union_tag_bits_from_num_elements.
  assert (0 < N.log2_up (N.of_nat n))%N by (apply N.log2_up_pos; lia). lia.
Qed.
