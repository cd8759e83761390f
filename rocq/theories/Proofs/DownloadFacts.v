(** Reading a file of another node, end to end. *)
From Verif.Base Require Import Prelude Bits.
From Verif.Model Require Import Types Codec MsgId Frames TransferManager FileServer Node FileNode.
From Verif.Spec Require Import CodecSpec MsgIdSpec FrameSpec ReassemblySpec SendingSpec NodeSpec CallSpec DownloadSpec.
From Verif.Proofs Require Import FileFacts NodeCallTop.
Local Open Scope Z_scope.

(** Values with the same content look alike. *)
Local Opaque bits_of_N N_of_bits.
Lemma content_bytes items items' : map (content byte_type) items = map (content byte_type) items' ->
  map byte_of items = map byte_of items'.
Proof.
  revert items'. induction items as [|i l IH]; intros [|j l'] H; try discriminate; [reflexivity|].
  cbn [map] in *. injection H as H1 H2. f_equal; [|apply IH, H2].
  unfold byte_type in H1. cbn [content] in H1. destruct i, j; cbn in *; congruence.
Qed.
Lemma request_content w off raw : content read_request w = content read_request (asks off raw) ->
  exists path rest rest' a a', w = VComp (VPrim (bits_of_N 40 off) :: VComp (VArr path :: rest) a :: rest') a' /\
    map byte_of path = map (fun n => (n mod 256)%N) raw.
Proof.
  unfold read_request, asks. cbn [content map zip_content]. intros H.
  destruct w as [| | |vs a']; try discriminate. injection H as H.
  destruct vs as [|o [|p rest']]; cbn [zip_content] in H; try discriminate. injection H as H1 H2.
  destruct o as [b| | |]; try discriminate. injection H1 as ->.
  destruct p as [| | |vs a]; try discriminate. injection H2 as H2.
  destruct vs as [|ps rest]; cbn [zip_content] in H2; try discriminate. injection H2 as H2.
  destruct ps as [| |path|]; try discriminate. injection H2 as H2.
  exists path, rest, rest', a, a'. split; [reflexivity|].
  rewrite (content_bytes path (map (fun n => VPrim (bits_of_N 8 n)) raw) H2).
  rewrite map_map. apply map_ext. intros n. cbn [byte_of]. apply N_of_bits_of_N.
Qed.
Lemma response_content w error data : content read_response w = content read_response (response error data) ->
  error_of w = Some (error mod 65536)%N /\
  data_of w = (if (error mod 65536 =? 0)%N then Some (map (fun n => (n mod 256)%N) data) else None).
Proof.
  unfold read_response, response. cbn [content map zip_content]. intros H.
  destruct w as [| | |vs a']; try discriminate. injection H as H.
  destruct vs as [|o [|p rest']]; cbn [zip_content] in H; try discriminate. injection H as H1 H2.
  destruct o as [| | |vs a]; try discriminate. injection H1 as H1.
  destruct vs as [|e rest]; cbn [zip_content] in H1; try discriminate. injection H1 as H1.
  destruct e as [b| | |]; try discriminate. injection H1 as ->.
  destruct p as [| |items|]; try discriminate. injection H2 as H2.
  apply content_bytes in H2. rewrite map_map in H2. unfold byte_of in H2 at 2. cbn [byte] in H2.
  unfold error_of, data_of. rewrite N_of_bits_of_N. change (2 ^ N.of_nat 16)%N with 65536%N. split; [reflexivity|].
  destruct (error mod 65536 =? 0)%N; [|reflexivity]. f_equal. etransitivity; [exact H2|].
  apply map_ext. intros n. apply N_of_bits_of_N.
Qed.

Lemma bytes_valid mx l : (length l <= mx)%nat -> valid (TArr true byte_type mx) (VArr (map byte l)).
Proof.
  intros H. constructor; [|rewrite map_length; exact H].
  apply Forall_forall. intros x Hx. apply in_map_iff in Hx as (n & <- & _). constructor. apply bits_of_N_length.
Qed.
Lemma response_valid error data : (length data <= 256)%nat -> valid read_response (response error data).
Proof.
  intros H. unfold read_response, response. constructor. constructor; [|constructor; [|constructor]].
  - constructor. constructor; [|constructor]. constructor. apply bits_of_N_length.
  - apply bytes_valid, H.
Qed.
Lemma asks_valid off raw : (length raw <= 200)%nat -> valid read_request (asks off raw).
Proof.
  intros H. unfold read_request, asks. constructor. constructor; [|constructor; [|constructor]].
  - constructor. apply bits_of_N_length.
  - constructor. constructor; [|constructor]. apply (bytes_valid 200 raw), H.
Qed.
Lemma mod_bytes l : Forall (fun b => (b < 256)%N) l -> map (fun n => (n mod 256)%N) l = l.
Proof. intros H. induction H as [|b l Hb H IH]; [reflexivity|]. cbn [map]. rewrite IH, N.mod_small by exact Hb. reflexivity. Qed.

Section Download.
  Variable isfile : str -> bool.
  Variable abspath : str -> str.
  Variable contents : str -> option (list N).
  Variable decode : list N -> option str.
  Variables (lookup : list str) (path_map : list (str * str)).
  Variables (A B : station) (hd : handler) (id crc a dest : N).
  Let dt := read_type id crc.

  Notation file_service := (file_service isfile abspath contents decode lookup path_map A B hd id crc a dest).

  Lemma read_length raw off data :
    read isfile abspath contents decode lookup path_map raw off = Ok (Some data) -> (length data <= 256)%nat.
  Proof.
    unfold read. destruct (decode raw); [|discriminate]. destruct (resolve_path _ _ _ _ _); [|discriminate].
    destruct (contents _); [|discriminate]. intros H.
    apply (f_equal (fun r => match r with Ok (Some d) => length d | _ => 0%nat end)) in H. cbv beta iota in H.
    rewrite <- H, firstn_length. apply Nat.le_min_l.
  Qed.

  Definition reply_for (r : option (list N)) : value :=
    match r with Some data => response 0 data | None => response unknown_error [] end.

  Lemma exchange_read off raw x r : file_service ->
    (off < 2 ^ 40)%N -> (length raw <= 200)%nat -> Forall (fun b => (b < 256)%N) raw ->
    read isfile abspath contents decode lookup path_map raw off = Ok r ->
    exchanged A B hd dt a dest (asks off raw) x ->
    exists t, answered A dt dest (asks off raw) x t /\
      content read_response (rx_value t) = content read_response (reply_for r).
  Proof.
    intros [F1 F2 F3 F4 [F5 F5'] F6 F7 F8 F9 F10] Ho Hl Hb Hr
      (X1 & X1' & X2 & X3 & X4 & X5 & X6 & X7 & X8 & X9 & X10 & X11 & X12 & X13 & X14 & X15).
    assert (Hv : valid read_response (reply_for r)).
    { unfold reply_for. destruct r as [d|]; apply response_valid; [apply (read_length raw off), Hr|cbn; lia]. }
    assert (Hq : forall w, content read_request w = content read_request (asks off raw) ->
              handle_read isfile abspath contents decode lookup path_map w = Ok (reply_for r)).
    { intros w Hw. apply request_content in Hw as (path & rest & rest' & a1 & a2 & -> & Hp).
      cbn [handle_read]. rewrite Hp, mod_bytes by exact Hb. rewrite N_of_bits_of_N_small by exact Ho.
      rewrite Hr. reflexivity. }
    destruct (service_call A B (x_before x) (x_between x) (x_callee x) dt (asks off raw) dest a (x_prio x) (x_timeout x)
      (x_canfd x) hd (fun _ => reply_for r) (x_used x) (x_request x) (x_request_pre x) (x_request_last x)
      (x_request_earlier x) (x_reply x) (x_reply_pre x) (x_reply_last x) (x_reply_earlier x))
      as (q & t & l & _ & _ & E1 & E2 & E3 & E4); try assumption.
    - constructor; cbn [dt read_type dt_service dt_id dt_crc dt_fields dt_response]; try assumption; try reflexivity.
      + cbn. repeat split; lia || discriminate.
      + cbn. repeat split; lia || discriminate.
      + apply asks_valid, Hl.
      + intros _ _. exact Hv.
      + split; [exact F5|split; [exact F5'|exact X1']].
    - intros q Hq'. rewrite F10. unfold file_outcome. rewrite (Hq _ Hq'). reflexivity.
    - exists t. split; [split; [exists l; exact E1|split; [exact E3|exact E4]]|exact E2].
  Qed.

  Lemma chunk_read off raw path out data x : file_service ->
    (off < 2 ^ 40)%N -> (length raw <= 200)%nat -> Forall (fun b => (b < 256)%N) raw ->
    decode raw = Some path -> resolve_path isfile abspath lookup path_map path = Ok out ->
    contents out = Some data -> Forall (fun b => (b < 256)%N) data ->
    exchanged A B hd dt a dest (asks off raw) x ->
    exists t, answered A dt dest (asks off raw) x t /\
      data_of (rx_value t) = Some (firstn 256 (skipn (N.to_nat off) data)).
  Proof.
    intros F Ho Hl Hb Hd Hr Hc Hbytes X.
    assert (E : read isfile abspath contents decode lookup path_map raw off = Ok (Some (firstn 256 (skipn (N.to_nat off) data)))).
    { unfold read. rewrite Hd, Hr, Hc. rewrite N.min_l; [reflexivity|]. unfold max_offset. change (2 ^ 40)%N with 1099511627776%N in Ho. lia. }
    destruct (exchange_read off raw x _ F Ho Hl Hb E X) as (t & T & C). exists t. split; [exact T|].
    apply response_content in C as [_ C]. rewrite C. change (0 mod 65536 =? 0)%N with true. cbv iota. f_equal.
    apply mod_bytes. apply Forall_forall. intros b Hi. rewrite Forall_forall in Hbytes. apply Hbytes.
    rewrite <- (firstn_skipn (N.to_nat off) data). apply in_or_app. right.
    rewrite <- (firstn_skipn 256 (skipn (N.to_nat off) data)). apply in_or_app. left. exact Hi.
  Qed.

  Lemma missing_read off raw path x : file_service ->
    (off < 2 ^ 40)%N -> (length raw <= 200)%nat -> Forall (fun b => (b < 256)%N) raw ->
    decode raw = Some path ->
    (forall out, resolve_path isfile abspath lookup path_map path = Ok out -> contents out = None) ->
    exchanged A B hd dt a dest (asks off raw) x ->
    exists t, answered A dt dest (asks off raw) x t /\
      data_of (rx_value t) = None /\ error_of (rx_value t) = Some 32767%N.
  Proof.
    intros F Ho Hl Hb Hd Hr X.
    assert (E : read isfile abspath contents decode lookup path_map raw off = Ok None).
    { unfold read. rewrite Hd. destruct (resolve_path isfile abspath lookup path_map path) as [out|] eqn:Er; [|reflexivity].
      rewrite (Hr out eq_refl). reflexivity. }
    destruct (exchange_read off raw x _ F Ho Hl Hb E X) as (t & T & C). exists t. split; [exact T|].
    apply response_content in C as [C1 C2]. split; [rewrite C2|rewrite C1]; reflexivity.
  Qed.
End Download.

(** The pieces of a list. *)
Lemma firstn_plus {T} m n (l : list T) : firstn (m + n) l = firstn m l ++ firstn n (skipn m l).
Proof.
  revert l. induction m as [|m IH]; intros l; [reflexivity|].
  destruct l as [|x l]; [cbn; rewrite firstn_nil; reflexivity|]. cbn [Nat.add firstn skipn app]. rewrite IH. reflexivity.
Qed.
Lemma pieces {T} (n : nat) (data : list T) k :
  concat (map (fun i => firstn n (skipn (n * i) data)) (seq 0 k)) = firstn (n * k) data.
Proof.
  induction k as [|k IH]; [rewrite Nat.mul_0_r; reflexivity|].
  rewrite seq_S, map_app, concat_app, IH. cbn [map concat Nat.add]. rewrite app_nil_r.
  replace (n * S k)%nat with (n * k + n)%nat by lia.
  symmetry. apply firstn_plus.
Qed.

Lemma nth_error_same {T} (l l' : list T) : (forall i, nth_error l i = nth_error l' i) -> l = l'.
Proof.
  revert l'. induction l as [|x l IH]; intros [|y l'] H; [reflexivity|discriminate (H 0%nat)|discriminate (H 0%nat)|].
  f_equal; [injection (H 0%nat) as ->; reflexivity|]. apply IH. intros i. apply (H (S i)).
Qed.
Lemma gather {S T} (P : nat -> S -> T -> Prop) xs n :
  (forall i x, nth_error xs i = Some x -> exists t, P (n + i)%nat x t) ->
  exists ts, length ts = length xs /\ forall i x t, nth_error xs i = Some x -> nth_error ts i = Some t -> P (n + i)%nat x t.
Proof.
  revert n. induction xs as [|x xs IH]; intros n H.
  - exists []. split; [reflexivity|]. intros [|i] x t; discriminate.
  - destruct (H 0%nat x eq_refl) as (t & Ht).
    destruct (IH (Datatypes.S n)) as (ts & Hl & Hts).
    { intros i y Hy. destruct (H (Datatypes.S i) y Hy) as (u & Hu). exists u. rewrite Nat.add_succ_r in Hu. exact Hu. }
    exists (t :: ts). split; [cbn; rewrite Hl; reflexivity|]. intros [|i] y u Hy Hu; cbn in Hy, Hu.
    + injection Hy as <-. injection Hu as <-. exact Ht.
    + rewrite Nat.add_succ_r. apply (Hts i y u Hy Hu).
Qed.

Lemma download isfile abspath contents decode lookup path_map A B hd id crc a dest raw path out data xs :
  file_service isfile abspath contents decode lookup path_map A B hd id crc a dest ->
  (length raw <= 200)%nat -> Forall (fun b => (b < 256)%N) raw ->
  decode raw = Some path -> resolve_path isfile abspath lookup path_map path = Ok out ->
  contents out = Some data -> Forall (fun b => (b < 256)%N) data ->
  (256 * N.of_nat (length xs) <= 2 ^ 40)%N ->
  (forall i x, nth_error xs i = Some x ->
     exchanged A B hd (read_type id crc) a dest (asks (256 * N.of_nat i) raw) x) ->
  exists ts chunks, length ts = length xs /\
    (forall i x t, nth_error xs i = Some x -> nth_error ts i = Some t ->
       answered A (read_type id crc) dest (asks (256 * N.of_nat i) raw) x t) /\
    map (fun t => data_of (rx_value t)) ts = map Some chunks /\
    concat chunks = firstn (256 * length xs) data /\
    (chunks <> [] -> (length (last chunks []) < 256)%nat -> concat chunks = data).
Proof.
  intros F Hl Hb Hd Hr Hc Hbytes Hn Hx.
  destruct (gather (fun i x t => answered A (read_type id crc) dest (asks (256 * N.of_nat i) raw) x t /\
      data_of (rx_value t) = Some (firstn 256 (skipn (256 * i) data))) xs 0) as (ts & Hlen & Hts).
  { intros i x Hi. cbn [Nat.add].
    destruct (chunk_read isfile abspath contents decode lookup path_map A B hd id crc a dest (256 * N.of_nat i) raw path out data x)
      as (t & T & D); try assumption.
    - assert (i < length xs)%nat by (apply nth_error_Some; congruence). change (2 ^ 40)%N with 1099511627776%N in *. lia.
    - apply Hx, Hi.
    - exists t. split; [exact T|]. rewrite D. do 3 f_equal. lia. }
  exists ts, (map (fun i => firstn 256 (skipn (256 * i) data)) (seq 0 (length xs))).
  split; [exact Hlen|]. split; [intros i x t H1 H2; apply (Hts i x t H1 H2)|].
  assert (E : concat (map (fun i => firstn 256 (skipn (256 * i) data)) (seq 0 (length xs))) = firstn (256 * length xs) data)
    by apply pieces.
  split; [|split; [exact E|]].
  - rewrite map_map. apply nth_error_same. intros i. rewrite !nth_error_map.
    destruct (nth_error ts i) as [t|] eqn:Et.
    + assert (Hi : (i < length xs)%nat) by (rewrite <- Hlen; apply nth_error_Some; congruence).
      destruct (nth_error xs i) as [x|] eqn:Ex; [|apply nth_error_None in Ex; lia].
      cbn [option_map]. rewrite (proj2 (Hts i x t Ex Et)).
      rewrite nth_error_nth' with (d := 0%nat) by (rewrite seq_length; exact Hi). rewrite seq_nth by exact Hi. reflexivity.
    + apply nth_error_None in Et. rewrite (proj2 (nth_error_None _ _)) by (rewrite seq_length; lia). reflexivity.
  - rewrite E. destruct (length xs) as [|n]; [cbn [seq map]; congruence|]. intros _.
    rewrite seq_S, map_app. cbn [map]. rewrite last_last. cbn [Nat.add]. rewrite firstn_length, skipn_length. intros H.
    apply firstn_all2. lia.
Qed.
