(** Text and bytes in array fields. *)
From Coq Require Import String.
From Verif.Base Require Import Prelude Bits.
From Verif.Model Require Import BitCodec Types Codec Prim Float Utf8 ObjectApi.
From Verif.Spec Require Import PrimSpec CodecSpec ObjectSpec.
From Verif.Proofs Require Import CodecFacts PrimFacts Utf8Facts ObjectFacts ObjectTop ObjectArrays.
Open Scope list_scope.

Definition byte_slot (et : atype) (s : slot) (b : N) : Prop :=
  holds et s (PInt (Z.of_N b)) /\ exists x r, s = SPrim (x :: r).

Lemma stored_byte h k cm b : int_type k 8 -> representable k 8 (Z.of_N b) ->
  exists s, stored h (APrim k 8 cm) (PInt (Z.of_N b)) s /\ byte_slot (APrim k 8 cm) s b.
Proof.
  intros Ht Hr.
  destruct (prim_set_keeps h k 8 cm (PInt (Z.of_N b))) as (bits & E & Hh).
  { split; [exact Ht|]. exists (Z.of_N b). auto. }
  exists (SPrim bits). split; [exists bits; auto|]. split; [exact Hh|].
  destruct (set_get k 8 cm (Z.of_N b) Ht) as (b' & Es & Hl & _).
  assert (b' = bits) as ->.
  { unfold prim_set in E. destruct k; try contradiction; cbn [int_type] in Ht; try discriminate; congruence. }
  destruct bits as [|x r]; [discriminate|]. eauto.
Qed.

Lemma append_all_bytes k cm bs : int_type k 8 -> Forall (fun b => representable k 8 (Z.of_N b)) bs ->
  forall h a dyn mx items, nth_error h a = Some (CArr dyn (APrim k 8 cm) mx items) ->
  length items <= mx ->
  exists h' items', nth_error h' a = Some (CArr dyn (APrim k 8 cm) mx (items ++ items')) /\
    (forall c, c <> a -> nth_error h' c = nth_error h c) /\
    (if length items + length bs <=? mx
     then append_all h a (map (fun b => PInt (Z.of_N b)) bs) = (Ok PNone, h') /\
          Forall2 (byte_slot (APrim k 8 cm)) items' bs
     else append_all h a (map (fun b => PInt (Z.of_N b)) bs) = (Err IndexError, h')).
Proof.
  intros Ht Hb. induction Hb as [|b bs Hb1 Hb IH]; intros h a dyn mx items E Hl.
  - exists h, []. rewrite app_nil_r. split; [exact E|]. split; [reflexivity|].
    cbn [length map append_all]. replace (length items + 0 <=? mx) with true by lia.
    split; [reflexivity|constructor].
  - cbn [map append_all length]. unfold arr_append. rewrite E.
    destruct (Nat.lt_ge_cases (length items) mx) as [Hlt|Hge].
    + destruct (stored_byte h k cm b Ht Hb1) as (s & Hs & Hbs).
      rewrite (insert_at h a dyn (APrim k 8 cm) mx items (Z.of_nat (length items)) _ s E Hlt ltac:(lia) Hs).
      assert (list_insert (insert_index (length items) (Z.of_nat (length items))) s items
              = items ++ [s]) as ->.
      { unfold list_insert, insert_index. replace (Z.of_nat (length items) <? 0)%Z with false by lia.
        replace (Z.to_nat _) with (length items) by lia.
        rewrite firstn_all, skipn_all. reflexivity. }
      set (h1 := put h a (CArr dyn (APrim k 8 cm) mx (items ++ [s]))).
      destruct (IH h1 a dyn mx (items ++ [s])) as (h2 & items' & E2 & F2 & H2).
      { apply (put_same _ _ _ _ E). }
      { rewrite app_length. cbn. lia. }
      exists h2, (s :: items'). rewrite <- app_assoc in E2. split; [exact E2|]. split.
      { intros c Hc. rewrite F2 by exact Hc. apply put_other. congruence. }
      rewrite app_length in H2. cbn [length] in H2.
      replace (length items + S (length bs)) with (length items + 1 + length bs) by lia.
      destruct (length items + 1 + length bs <=? mx).
      * destruct H2 as (H2 & H3). split; [exact H2|]. constructor; assumption.
      * exact H2.
    + exists h, []. rewrite app_nil_r. split; [exact E|]. split; [reflexivity|].
      replace (length items + S (length bs) <=? mx) with false by lia.
      unfold arr_insert. rewrite E.
      replace (Z.of_nat mx <=? Z.of_nat (length items))%Z with true by lia. reflexivity.
Qed.

Lemma item_bytes_ok et items bs : Forall2 (byte_slot et) items bs -> Forall (fun b => (b < 256)%N) bs ->
  item_bytes et items = Ok bs.
Proof.
  induction 1 as [|s b items bs (Hh & x & r & ->) H IH]; intros Hb; [reflexivity|].
  apply Forall_cons_iff in Hb as (Hb1 & Hb). unfold holds in Hh.
  change (item_bytes et (SPrim (x :: r) :: items)) with
    (v <- item_value et (SPrim (x :: r)) ;;
     match v with
     | PInt z => if (0 <=? z)%Z && (z <? 256)%Z
                 then bs0 <- item_bytes et items ;; Ok (Z.to_N z :: bs0) else Err ValueError
     | _ => Err TypeError
     end).
  rewrite Hh. cbn [bind].
  replace ((0 <=? Z.of_N b)%Z && (Z.of_N b <? 256)%Z) with true by lia.
  rewrite (IH Hb), N2Z.id. reflexivity.
Qed.

(** ** Sizes *)

Lemma encode_scalars s : Forall scalar s -> exists bs, utf8_encode s = Ok bs /\ length bs = utf8_size s.
Proof.
  induction 1 as [|c s Hc H (bs & E & L)]; [exists []; auto|].
  assert (exists b, utf8_char c = Ok b /\ length b =
    (if (c <? 0x80)%N then 1 else if (c <? 0x800)%N then 2 else if (c <? 0x10000)%N then 3 else 4))
    as (b & Eb & Lb).
  { unfold utf8_char. unfold scalar in Hc.
    destruct (c <? 0x80)%N eqn:?; [eexists; split; reflexivity|].
    destruct (c <? 0x800)%N eqn:?; [eexists; split; reflexivity|].
    replace ((0xD800 <=? c)%N && (c <=? 0xDFFF)%N) with false by lia.
    destruct (c <? 0x10000)%N eqn:?; [eexists; split; reflexivity|].
    replace (c <? 0x110000)%N with true by lia. eexists; split; reflexivity. }
  exists (b ++ bs). cbn [utf8_encode]. rewrite Eb, E. split; [reflexivity|].
  rewrite app_length, Lb, L. reflexivity.
Qed.

Lemma encode_not_scalar s : ~ Forall scalar s -> exists e, utf8_encode s = Err e.
Proof.
  induction s as [|c s IH]; intros H; [exfalso; apply H; constructor|].
  cbn [utf8_encode]. destruct (utf8_char c) as [b|e] eqn:E; [|exists e; reflexivity].
  destruct IH as (e & ->); [|exists e; reflexivity].
  intros Hs. apply H. constructor; [|exact Hs].
  unfold utf8_char in E. unfold scalar. revert E. dif; intros E; try discriminate; lia.
Qed.

Lemma ascii_bytes s : Forall (fun c => (c < 128)%N) s -> utf8_encode s = Ok s.
Proof.
  induction 1 as [|c s Hc H IH]; [reflexivity|]. cbn [utf8_encode].
  unfold utf8_char. replace (c <? 0x80)%N with true by lia. rewrite IH. reflexivity.
Qed.

(** ** Assignment of text *)

Lemma encode_outcome k cm s bs h b mx items : int_type k 8 ->
  nth_error h b = Some (CArr true (APrim k 8 cm) mx items) ->
  utf8_encode s = Ok bs -> Forall (fun x => representable k 8 (Z.of_N x)) bs ->
  exists h', (forall c, c <> b -> nth_error h' c = nth_error h c) /\
    arr_encode h b s = ((if length bs <=? mx then Ok PNone else Err IndexError), h') /\
    (length bs <= mx -> arr_decode h' b = Ok s).
Proof.
  intros Ht E Es Hb. unfold arr_encode, arr_delall. rewrite E. rewrite Es.
  change (string_like true (APrim k 8 cm)) with true. cbn [negb].
  set (h1 := put h b (CArr true (APrim k 8 cm) mx [])).
  assert (nth_error h1 b = Some (CArr true (APrim k 8 cm) mx [])) as E1 by apply (put_same _ _ _ _ E).
  destruct (append_all_bytes k cm bs Ht Hb h1 b true mx [] E1 ltac:(cbn; lia)) as (h2 & it & E2 & F2 & H2).
  cbn [length app] in *. rewrite Nat.add_0_l in H2.
  exists h2. split.
  { intros c Hc. rewrite F2 by exact Hc. apply put_other. congruence. }
  destruct (length bs <=? mx) eqn:El.
  - destruct H2 as (H2 & H3). split; [exact H2|]. intros _.
    unfold arr_decode. rewrite E2. change (string_like true (APrim k 8 cm)) with true. cbn [negb].
    rewrite (item_bytes_ok _ _ _ H3 (utf8_encode_bytes _ _ Es)). cbn [bind].
    apply utf8_decode_encode. exact Es.
  - split; [exact H2|]. intros H. lia.
Qed.

Lemma assign_text_any k s bs h a nm b mx : int_type k 8 -> text_field h a nm b k mx ->
  utf8_encode s = Ok bs -> Forall (fun x => representable k 8 (Z.of_N x)) bs ->
  exists h', setattr h a nm (PStr s) = ((if length bs <=? mx then Ok PNone else Err AttributeError), h') /\
    field_array h' a nm b /\ (length bs <= mx -> arr_decode h' b = Ok s).
Proof.
  intros Ht (Hf & Ho & cm & items & Eb) Es Hb.
  destruct (setattr_array h a nm b (PStr s) Hf Ho) as (h1 & E1 & Fa & Fd & Fo & Fc).
  assert (nth_error h1 b = Some (CArr true (APrim k 8 cm) mx items)) as Eb1.
  { rewrite (Fa _ _ _ _ _ Eb). exact Eb. }
  destruct (clear_effect h1 b (APrim k 8 cm) mx ltac:(exists true, items; exact Eb1))
    as (h2 & E2 & _ & _ & _ & F2).
  assert (nth_error h2 b = Some (CArr true (APrim k 8 cm) mx [])) as Eb2.
  { unfold arr_clear in E2. rewrite Eb1, clear_loop_nil in E2 by lia.
    injection E2 as <-. apply (put_same _ _ _ _ Eb1). }
  destruct (encode_outcome k cm s bs h2 b mx [] Ht Eb2 Es Hb) as (h3 & F3 & E3 & D3).
  exists h3. rewrite E1. unfold assign_array. rewrite E2, E3. split; [|split; [|exact D3]].
  - destruct (length bs <=? mx); reflexivity.
  - apply (field_array_len h h1 h3); auto.
    + intros c Hc. rewrite F3, F2 by exact Hc. reflexivity.
    + exists true, (APrim k 8 cm), mx, items. exact Eb1.
Qed.

Lemma representable_byte b : (b < 256)%N -> representable KUint 8 (Z.of_N b).
Proof. intros H. unfold representable. cbn [int_lo int_hi]. change (2 ^ Z.of_nat 8)%Z with 256%Z. lia. Qed.

Lemma assign_text s h a nm b mx : text_field h a nm b KUint mx ->
  Forall scalar s -> utf8_size s <= mx ->
  exists h', setattr h a nm (PStr s) = (Ok PNone, h') /\
    field_array h' a nm b /\ arr_decode h' b = Ok s.
Proof.
  intros Hf Hs Hl. destruct (encode_scalars s Hs) as (bs & Es & L).
  destruct (assign_text_any KUint s bs h a nm b mx) as (h' & A & B & C); auto.
  - cbn. lia.
  - eapply Forall_impl; [|exact (utf8_encode_bytes _ _ Es)]. intros x. apply representable_byte.
  - exists h'. replace (length bs <=? mx) with true in A by lia.
    split; [exact A|]. split; [exact B|]. apply C. lia.
Qed.

Lemma assign_text_ascii s h a nm b mx : text_field h a nm b KInt mx ->
  Forall (fun c => (c < 128)%N) s -> length s <= mx ->
  exists h', setattr h a nm (PStr s) = (Ok PNone, h') /\
    field_array h' a nm b /\ arr_decode h' b = Ok s.
Proof.
  intros Hf Hs Hl. pose proof (ascii_bytes s Hs) as Es.
  destruct (assign_text_any KInt s s h a nm b mx) as (h' & A & B & C); auto.
  - cbn. lia.
  - eapply Forall_impl; [|exact Hs]. intros x Hx. cbv beta in Hx. unfold representable. cbn [int_lo int_hi].
    change (2 ^ (Z.of_nat 8 - 1))%Z with 128%Z. lia.
  - exists h'. replace (length s <=? mx) with true in A by lia.
    split; [exact A|]. split; [exact B|]. apply C. lia.
Qed.

Lemma refuse_text s h a nm b mx : text_field h a nm b KUint mx ->
  ~ Forall scalar s \/ mx < utf8_size s ->
  exists h', setattr h a nm (PStr s) = (Err AttributeError, h').
Proof.
  intros Hf H.
  destruct (utf8_encode s) as [bs|e] eqn:Es.
  - assert (Forall scalar s) as Hs.
    { destruct (Forall_dec scalar) with (l := s) as [Hs|Hs]; [|exact Hs|].
      - intros c. unfold scalar.
        destruct (((c <? 0xD800) || ((0xDFFF <? c) && (c <? 0x110000)))%N) eqn:Ec; [left|right]; lia.
      - destruct (encode_not_scalar s Hs) as (e & He). congruence. }
    destruct (encode_scalars s Hs) as (bs' & Es' & L). assert (bs' = bs) by congruence. subst bs'.
    destruct (assign_text_any KUint s bs h a nm b mx) as (h' & A & _ & _); auto.
    + cbn. lia.
    + eapply Forall_impl; [|exact (utf8_encode_bytes _ _ Es)]. intros x. apply representable_byte.
    + exists h'. replace (length bs <=? mx) with false in A; [exact A|].
      destruct H as [H|H]; [contradiction|lia].
  - destruct Hf as (Hf & Ho & cm & items & Eb).
    destruct (setattr_array h a nm b (PStr s) Hf Ho) as (h1 & E1 & Fa & _ & _ & _).
    assert (nth_error h1 b = Some (CArr true (APrim KUint 8 cm) mx items)) as Eb1.
    { rewrite (Fa _ _ _ _ _ Eb). exact Eb. }
    rewrite E1. unfold assign_array, arr_clear. rewrite Eb1.
    set (h2 := put h1 b _).
    assert (nth_error h2 b = Some (CArr true (APrim KUint 8 cm) mx (clear_loop (S (length items)) items)))
      as Eb2 by apply (put_same _ _ _ _ Eb1).
    unfold arr_encode, arr_delall. rewrite Eb2.
    change (string_like true (APrim KUint 8 cm)) with true. cbn [negb]. rewrite Es. eauto.
Qed.

(** Bytes: [from_bytes] and [to_bytes]. *)
Lemma bytes_roundtrip h a cm dyn mx items bs :
  nth_error h a = Some (CArr dyn (APrim KUint 8 cm) mx items) ->
  Forall (fun b => (b < 256)%N) bs -> length bs <= mx ->
  exists h', arr_from_bytes h a bs = (Ok PNone, h') /\ arr_to_bytes h' a = Ok bs.
Proof.
  intros E Hb Hl. unfold arr_from_bytes, arr_delall. rewrite E.
  set (h1 := put h a (CArr dyn (APrim KUint 8 cm) mx [])).
  assert (nth_error h1 a = Some (CArr dyn (APrim KUint 8 cm) mx [])) as E1 by apply (put_same _ _ _ _ E).
  destruct (append_all_bytes KUint cm bs ltac:(cbn; lia)) with (h := h1) (a := a) (dyn := dyn) (mx := mx)
    (items := @nil slot) as (h2 & it & E2 & F2 & H2); auto.
  - eapply Forall_impl; [|exact Hb]. intros x. apply representable_byte.
  - cbn; lia.
  - cbn [length app] in *. rewrite Nat.add_0_l in H2.
    replace (length bs <=? mx) with true in H2 by lia. destruct H2 as (H2 & H3).
    exists h2. split; [exact H2|]. unfold arr_to_bytes. rewrite E2.
    apply item_bytes_ok; assumption.
Qed.
