From Verif.Base Require Import Prelude Bits.
From Verif.Model Require Import BitCodec Types Codec.
From Verif.Spec Require Import CodecSpec.
From Verif.Proofs Require Import BitCodecFacts.

Arguments pack : simpl never.
Arguments unpack : simpl never.

(** ** Widths against bit lengths *)

Lemma array_len_bits_bit_length mx : 1 <= mx ->
  array_len_bits_from_max_size mx = bit_length mx.
Proof.
  intros H. unfold array_len_bits_from_max_size, bit_length. f_equal.
  rewrite N.log2_up_eqn by lia.
  rewrite N.size_log2 by lia. f_equal. f_equal. lia.
Qed.

Lemma union_tag_bits_bit_length n : 2 <= n ->
  union_tag_bits_from_num_elements n = bit_length (Nat.max (n - 1) 1).
Proof.
  intros H. unfold union_tag_bits_from_num_elements, bit_length. f_equal.
  rewrite N.log2_up_eqn by lia.
  rewrite N.size_log2 by lia. f_equal. f_equal. lia.
Qed.

(** ** Inversion of validity *)

Lemma valid_arr_inv dyn et mx v : valid (TArr dyn et mx) v ->
  exists items, v = VArr items /\ Forall (valid et) items /\
    (if dyn then length items <= mx else length items = mx).
Proof. intros H. inversion H; subst; eauto. Qed.

Lemma valid_comp_inv u fs v : valid (TComp u fs) v ->
  exists vs active, v = VComp vs active /\ Forall2 valid fs vs /\
    (if u then forall i, active = Some i -> i < length fs else active = None).
Proof. intros H. inversion H; subst; eauto. Qed.

(** ** Well-formedness *)

Lemma wf_fields u fs : wf_type (TComp u fs) -> Forall wf_type fs.
Proof.
  cbn [wf_type]. intros [_ H]. induction fs as [|f fs IH]; [constructor|].
  cbn in H. destruct H. constructor; auto.
Qed.

Lemma default_valid t : wf_type t -> valid t (default t).
Proof.
  induction t as [k n cm|n|dyn et mx IH|u fs IH] using dtype_ind'; intros Hwf.
  - cbn [default]. constructor. apply repeat_length.
  - constructor.
  - destruct Hwf as (He & _ & Hm). cbn [default]. destruct dyn.
    + constructor; [constructor|cbn; lia].
    + constructor; [|apply repeat_length].
      apply Forall_forall. intros x Hx. apply repeat_spec in Hx as ->. auto.
  - apply wf_fields in Hwf as Hfs. cbn [default].
    assert (Forall2 valid fs (map default fs)) as H2.
    { clear Hwf. induction fs as [|f fs IHfs]; [constructor|].
      inversion IH; inversion Hfs; subst. cbn [map]. constructor; auto. }
    destruct u; constructor; auto. discriminate.
Qed.

(** ** Packing succeeds, with length bounds *)

Definition packs (p : bool -> value -> res bits) (lo hi : nat) (v : value) : Prop :=
  forall tao, exists bs, p tao v = Ok bs /\ lo <= length bs <= hi.

Lemma mapM_last_packs (f : bool -> value -> res bits) lo hi vs :
  Forall (fun v => forall last, exists bs, f last v = Ok bs /\ lo <= length bs <= hi) vs ->
  exists bss, mapM_last f vs = Ok bss /\
    length vs * lo <= length (concat bss) <= length vs * hi.
Proof.
  induction 1 as [|v vs Hv Hvs IH]; [exists []; cbn; split; [reflexivity|lia]|].
  destruct (Hv (match vs with [] => true | _ => false end)) as (bs & E & Hl).
  destruct IH as (bss & E' & Hl').
  exists (bs :: bss). cbn [mapM_last]. rewrite E, E'. cbn [bind concat].
  rewrite app_length. cbn [length]. split; [reflexivity|lia].
Qed.

Lemma pack_struct_packs fs :
  Forall (fun t => forall v, valid t v ->
            packs (pack t) (get_min_bitlen t) (get_max_bitlen t) v) fs ->
  forall vs tao, Forall2 valid fs vs ->
  exists bs, pack_struct (map pack fs) tao vs = Ok bs /\
    list_sum (map get_min_bitlen fs) <= length bs <= list_sum (map get_max_bitlen fs).
Proof.
  induction 1 as [|f fs Hf Hfs IH]; intros vs tao H2;
    inversion H2 as [|f0 v fs0 vs0 Hv Hvs]; subst.
  - exists []. cbn. split; [reflexivity|lia].
  - cbn [map pack_struct].
    destruct (Hf _ Hv (tao && match map pack fs with [] => true | _ => false end))
      as (bs & E & Hl).
    destruct (IH _ tao Hvs) as (bs' & E' & Hl').
    rewrite E, E'. cbn [bind]. exists (bs ++ bs'). rewrite app_length.
    cbn [list_sum fold_right]. unfold list_sum in *. split; [reflexivity|lia].
Qed.

Lemma list_max1_ge l x : In x l -> x <= list_max1 l.
Proof. unfold list_max1. induction l; cbn; [tauto|]. intros [->|H]; [|specialize (IHl H)]; lia. Qed.

Lemma list_min1_le l x : In x l -> list_min1 l <= x.
Proof.
  destruct l as [|a l]; cbn; [tauto|]. revert a. induction l as [|b l IH]; intros a.
  - cbn. intros [->|[]]. lia.
  - cbn [fold_right]. intros [->|[->|H]].
    + specialize (IH x (or_introl eq_refl)). lia.
    + lia.
    + specialize (IH a (or_intror H)). lia.
Qed.

Lemma pack_nth_packs fs i :
  Forall (fun t => forall v, valid t v ->
            packs (pack t) (get_min_bitlen t) (get_max_bitlen t) v) fs ->
  forall vs tao, i < length fs -> Forall2 valid fs vs ->
  exists bs, pack_nth (map pack fs) i tao vs = Ok bs /\
    list_min1 (map get_min_bitlen fs) <= length bs <= list_max1 (map get_max_bitlen fs).
Proof.
  intros HF vs tao Hi H2.
  assert (exists t bs, In t fs /\ pack_nth (map pack fs) i tao vs = Ok bs /\
     get_min_bitlen t <= length bs <= get_max_bitlen t) as (t & bs & Ht & E & Hl).
  { revert i vs Hi H2. induction HF as [|f fs Hf Hfs IH]; intros i vs Hi H2;
      [cbn in Hi; lia|]. inversion H2 as [|f0 v fs0 vs0 Hv Hvs]; subst. cbn [map].
    destruct i as [|i].
    - cbn [pack_nth]. destruct (Hf _ Hv tao) as (bs & E & Hl).
      exists f, bs. cbn. auto.
    - cbn [pack_nth]. cbn [length] in Hi.
      destruct (IH i _ ltac:(lia) Hvs) as (t & bs & Ht & E & Hl).
      exists t, bs. cbn. auto. }
  exists bs. split; [exact E|].
  assert (list_min1 (map get_min_bitlen fs) <= get_min_bitlen t)
    by (apply list_min1_le, in_map, Ht).
  assert (get_max_bitlen t <= list_max1 (map get_max_bitlen fs))
    by (apply list_max1_ge, in_map, Ht). lia.
Qed.

Lemma count_field mx n : 1 <= mx -> n <= mx ->
  le_from_be_bits (py_format_b (array_len_bits_from_max_size mx) (N.of_nat n))
    (array_len_bits_from_max_size mx)
  = Ok (concat (rchunks 8 (bits_of_N (array_len_bits_from_max_size mx) (N.of_nat n)))).
Proof.
  intros Hm Hn. rewrite py_format_b_fit.
  - rewrite le_from_be_exact by apply bits_of_N_length. reflexivity.
  - apply array_len_bits_pos. exact Hm.
  - apply array_len_bits_fit. exact Hn.
Qed.

Lemma base_pack_exact b n : length b = n ->
  base_pack b n = Ok (concat (rchunks 8 b)).
Proof.
  intros H. unfold base_pack. destruct b as [|x b].
  - cbn in H. subst n. reflexivity.
  - apply le_from_be_exact. exact H.
Qed.

Lemma pack_arr_eq dyn et mx tao items0 :
  pack (TArr dyn et mx) tao (VArr items0) =
  let items := firstn mx items0 in
  if negb dyn then
    let items' := items ++ repeat (default et) (mx - length items) in
    bs <- mapM_last (fun last i => pack et (tao && last) i) items' ;;
    Ok (concat bs)
  else if tao && (8 <=? get_min_bitlen et) then
    bs <- mapM_last (fun _ i => pack et false i) items ;;
    Ok (concat bs)
  else
    let count_width := array_len_bits_from_max_size mx in
    count <- le_from_be_bits
               (py_format_b count_width (N.of_nat (length items)))
               count_width ;;
    bs <- mapM_last (fun last i => pack et (tao && last) i) items ;;
    Ok (count ++ concat bs).
Proof. reflexivity. Qed.

Lemma pack_comp_eq u fs tao vs active :
  pack (TComp u fs) tao (VComp vs active) =
  if u then
    let tag := match active with Some i => i | None => 0 end in
    b <- pack_nth (map pack fs) tag tao vs ;;
    Ok (py_format_b (union_tag_bits_from_num_elements (length fs)) (N.of_nat tag) ++ b)
  else pack_struct (map pack fs) tao vs.
Proof. reflexivity. Qed.

Theorem pack_bounds t : wf_type t -> forall v, valid t v ->
  packs (pack t) (get_min_bitlen t) (get_max_bitlen t) v.
Proof.
  induction t as [k n cm|n|dyn et mx IH|u fs IH] using dtype_ind'; intros Hwf v Hv tao.
  - inversion Hv; subst. exists (concat (rchunks 8 b)). split.
    + apply base_pack_exact. reflexivity.
    + rewrite rchunks_concat_length. cbn. lia.
  - inversion Hv; subst. exists (repeat false n). split; [reflexivity|].
    rewrite repeat_length. cbn. lia.
  - destruct Hwf as (He & _ & Hm). specialize (IH He).
    apply valid_arr_inv in Hv as (items & -> & H0 & Hlen).
    destruct dyn; [|rename Hlen into Hmx; subst mx].
    2:{ (* static *)
      rewrite pack_arr_eq. cbn zeta. cbn [negb].
      rewrite firstn_all, Nat.sub_diag. cbn [repeat]. rewrite app_nil_r.
      destruct (mapM_last_packs (fun last i => pack et (tao && last) i)
                  (get_min_bitlen et) (get_max_bitlen et) items) as (bss & E & Hl).
      { apply Forall_forall. intros x Hx last. rewrite Forall_forall in H0.
        apply IH. auto. }
      rewrite E. cbn [bind]. exists (concat bss). split; [reflexivity|].
      cbn [get_min_bitlen get_max_bitlen]. lia. }
    { rewrite pack_arr_eq. cbn zeta. cbn [negb].
      rewrite firstn_all2 by lia.
      destruct (tao && (8 <=? get_min_bitlen et)) eqn:Et.
      * destruct (mapM_last_packs (fun _ i => pack et false i)
                  (get_min_bitlen et) (get_max_bitlen et) items) as (bss & E & Hl).
        { apply Forall_forall. intros x Hx last. rewrite Forall_forall in H0.
          apply IH. auto. }
        rewrite E. cbn [bind]. exists (concat bss). split; [reflexivity|].
        cbn [get_min_bitlen get_max_bitlen]. nia.
      * rewrite count_field by lia. cbn [bind].
        destruct (mapM_last_packs (fun last i => pack et (tao && last) i)
                  (get_min_bitlen et) (get_max_bitlen et) items) as (bss & E & Hl).
        { apply Forall_forall. intros x Hx last. rewrite Forall_forall in H0.
          apply IH. auto. }
        rewrite E. cbn [bind]. eexists. split; [reflexivity|].
        rewrite app_length, rchunks_concat_length, bits_of_N_length.
        rewrite array_len_bits_bit_length by lia.
        cbn [get_min_bitlen get_max_bitlen]. nia. }
  - apply wf_fields in Hwf as Hfs. destruct Hwf as [Hu _].
    assert (Forall (fun t => forall v, valid t v ->
       packs (pack t) (get_min_bitlen t) (get_max_bitlen t) v) fs) as HF.
    { clear Hv Hu. induction fs as [|f fs IHfs]; [constructor|].
      inversion IH; inversion Hfs; subst. constructor; auto. }
    apply valid_comp_inv in Hv as (vs & active & -> & H1 & H3).
    destruct u; [|subst active].
    2:{ rewrite pack_comp_eq.
      destruct (pack_struct_packs fs HF vs tao H1) as (bs & E & Hl).
      exists bs. split; [exact E|]. cbn [get_min_bitlen get_max_bitlen].
      destruct fs; cbn [length Nat.eqb]; [|lia].
      inversion H1; subst. cbn in E. injection E as <-. cbn. lia. }
    { rewrite pack_comp_eq. cbn zeta.
      specialize (Hu eq_refl).
      set (tag := match active with Some i => i | None => 0 end).
      assert (tag < length fs) as Ht.
      { unfold tag. destruct active; [apply H3; reflexivity|lia]. }
      destruct (pack_nth_packs fs tag HF vs tao Ht H1) as (bs & E & Hl).
      rewrite E. cbn [bind]. eexists. split; [reflexivity|].
      rewrite app_length, py_format_b_fit, bits_of_N_length;
        [|apply union_tag_bits_pos; lia|apply union_tag_bits_fit; lia].
      rewrite union_tag_bits_bit_length by lia.
      cbn [get_min_bitlen get_max_bitlen].
      replace (Nat.eqb (length fs) 0) with false by (symmetry; apply Nat.eqb_neq; lia).
      lia. }
Qed.

(** ** Round trip *)

(** [u] reads back what [p] wrote for [v], up to content [c]. *)
Definition rt (p : bool -> value -> res bits) (u : bool -> bits -> res (value * bits))
    (c : value -> data) (P : value -> Prop) (v : value) : Prop :=
  forall tao, exists bs, p tao v = Ok bs /\
    forall pad, (tao = true -> length pad < 8) ->
    exists v' rest, u tao (bs ++ pad) = Ok (v', rest) /\ c v' = c v /\ P v' /\
      (rest = pad \/ (tao = true /\ rest = [])).

Lemma rt_n et P (vs : list value) tao :
  Forall (rt (pack et) (unpack et) (content et) P) vs ->
  exists bss, mapM_last (fun last i => pack et (tao && last) i) vs = Ok bss /\
    forall pad, (tao = true -> length pad < 8) ->
    exists vs' rest,
      unpack_n (unpack et) (length vs) tao (concat bss ++ pad) = Ok (vs', rest) /\
      map (content et) vs' = map (content et) vs /\ Forall P vs' /\
      length vs' = length vs /\
      (rest = pad \/ (tao = true /\ rest = [])).
Proof.
  induction 1 as [|v vs Hv Hvs IH].
  - exists []. split; [reflexivity|]. intros pad Hp. exists [], pad.
    cbn. repeat split; auto.
  - destruct IH as (bss & E & IH).
    destruct (Hv (tao && match vs with [] => true | _ => false end))
      as (bs & Ev & Hrt).
    exists (bs :: bss). cbn [mapM_last]. rewrite Ev, E. cbn [bind].
    split; [reflexivity|]. intros pad Hp. cbn [concat length unpack_n].
    rewrite <- app_assoc.
    replace (match length vs with O => true | _ => false end)
      with (match vs with [] => true | _ => false end) by (destruct vs; reflexivity).
    destruct (Hrt (concat bss ++ pad)) as (v' & rest & Eu & Hc & HP & Hr).
    { intros Ht. apply andb_true_iff in Ht as [Ht1 Ht2].
      destruct vs; [|discriminate]. cbn in E. injection E as <-. cbn. auto. }
    rewrite Eu. cbn [bind].
    destruct (IH pad Hp) as (vs' & rest' & En & Hcs & HPs & Hlen & Hr').
    destruct Hr as [->|[Ht ->]].
    + rewrite En. cbn [bind]. exists (v' :: vs'), rest'.
      cbn [map length]. rewrite Hc, Hcs, Hlen. repeat split; auto.
    + apply andb_true_iff in Ht as [Ht1 Ht2]. destruct vs; [|discriminate].
      cbn [length unpack_n bind]. exists [v'], []. cbn [map length].
      rewrite Hc. repeat split; auto.
Qed.

Lemma rt_tao et P (vs : list value) :
  Forall (rt (pack et) (unpack et) (content et) P) vs ->
  Forall (fun v => exists bs, pack et false v = Ok bs /\ 8 <= length bs) vs ->
  exists bss, mapM_last (fun _ i => pack et false i) vs = Ok bss /\
    forall pad fuel, length pad < 8 -> length (concat bss ++ pad) < fuel ->
    exists vs',
      unpack_tao (unpack et false) fuel (concat bss ++ pad) = Ok vs' /\
      map (content et) vs' = map (content et) vs /\ Forall P vs' /\
      length vs' = length vs.
Proof.
  induction 1 as [|v vs Hv Hvs IH]; intros H8.
  - exists []. split; [reflexivity|]. intros pad fuel Hp Hf. exists [].
    destruct fuel as [|fuel]; [cbn in Hf; lia|].
    cbn [concat app unpack_tao].
    replace (8 <=? length pad) with false by (symmetry; apply Nat.leb_gt; lia).
    cbn. auto.
  - inversion H8; subst. destruct IH as (bss & E & IH); [assumption|].
    destruct (Hv false) as (bs & Ev & Hrt).
    destruct H1 as (bs0 & Ev0 & Hl8).
    assert (bs0 = bs) as -> by congruence.
    exists (bs :: bss). cbn [mapM_last]. rewrite Ev, E. cbn [bind].
    split; [reflexivity|]. intros pad fuel Hp Hf.
    cbn [concat] in *. rewrite <- app_assoc in *.
    destruct fuel as [|fuel]; [lia|]. cbn [unpack_tao].
    rewrite app_length in Hf.
    replace (8 <=? length (bs ++ concat bss ++ pad)) with true
      by (symmetry; apply Nat.leb_le; rewrite app_length; lia).
    destruct (Hrt (concat bss ++ pad)) as (v' & rest & Eu & Hc & HP & Hr);
      [discriminate|].
    destruct Hr as [->|[Ht _]]; [|discriminate].
    rewrite Eu. cbn [bind].
    destruct (IH pad fuel Hp) as (vs' & En & Hcs & HPs & Hlen); [lia|].
    rewrite En. cbn [bind]. exists (v' :: vs'). cbn [map length].
    rewrite Hc, Hcs, Hlen. repeat split; auto.
Qed.

Lemma rt_struct fs vs tao :
  Forall2 (fun t v => rt (pack t) (unpack t) (content t) (valid t) v) fs vs ->
  exists bs, pack_struct (map pack fs) tao vs = Ok bs /\
    forall pad, (tao = true -> length pad < 8) ->
    exists vs' rest,
      unpack_struct (map unpack fs) tao (bs ++ pad) = Ok (vs', rest) /\
      zip_content (map content fs) vs' = zip_content (map content fs) vs /\
      Forall2 valid fs vs' /\
      (rest = pad \/ (tao = true /\ rest = [])).
Proof.
  induction 1 as [|f v fs vs Hv Hvs IH].
  - exists []. split; [reflexivity|]. intros pad Hp. exists [], pad.
    cbn. repeat split; auto.
  - destruct IH as (bs' & E & IH).
    destruct (Hv (tao && match fs with [] => true | _ => false end))
      as (bs & Ev & Hrt).
    exists (bs ++ bs'). cbn [map pack_struct].
    replace (match map pack fs with [] => true | _ => false end)
      with (match fs with [] => true | _ => false end) by (destruct fs; reflexivity).
    rewrite Ev, E. cbn [bind]. split; [reflexivity|]. intros pad Hp.
    cbn [unpack_struct]. rewrite <- app_assoc.
    replace (match map unpack fs with [] => true | _ => false end)
      with (match fs with [] => true | _ => false end) by (destruct fs; reflexivity).
    destruct (Hrt (bs' ++ pad)) as (v' & rest & Eu & Hc & HP & Hr).
    { intros Ht. apply andb_true_iff in Ht as [Ht1 Ht2].
      destruct fs; [|discriminate]. inversion Hvs; subst. cbn in E.
      injection E as <-. cbn. auto. }
    rewrite Eu. cbn [bind].
    destruct (IH pad Hp) as (vs' & rest' & En & Hcs & HPs & Hr').
    destruct Hr as [->|[Ht ->]].
    + rewrite En. cbn [bind]. exists (v' :: vs'), rest'.
      cbn [zip_content]. rewrite Hc, Hcs. repeat split; auto.
    + apply andb_true_iff in Ht as [Ht1 Ht2]. destruct fs; [|discriminate].
      inversion Hvs; subst.
      cbn [map unpack_struct bind]. exists [v'], []. cbn [zip_content].
      rewrite Hc. repeat split; auto.
Qed.

Lemma rt_nth fs vs i tao :
  Forall2 (fun t v => rt (pack t) (unpack t) (content t) (valid t) v) fs vs ->
  i < length fs ->
  exists bs t v uf, pack_nth (map pack fs) i tao vs = Ok bs /\
    nth_error fs i = Some t /\ nth_error vs i = Some v /\
    nth_error (map unpack fs) i = Some uf /\
    forall pad, (tao = true -> length pad < 8) ->
    exists v' rest,
      uf tao (bs ++ pad) = Ok (v', rest) /\
      content t v' = content t v /\ valid t v' /\
      (rest = pad \/ (tao = true /\ rest = [])).
Proof.
  intros H2. revert i. induction H2 as [|f v fs vs Hv Hvs IH]; intros i Hi;
    [cbn in Hi; lia|].
  destruct i as [|i].
  - destruct (Hv tao) as (bs & Ev & Hrt). exists bs, f, v, (unpack f).
    cbn. auto.
  - cbn [length] in Hi. destruct (IH i ltac:(lia)) as (bs & t & v0 & uf & H).
    exists bs, t, v0, uf. cbn. exact H.
Qed.

Lemma list_set_length {A} (l : list A) i a : length (list_set l i a) = length l.
Proof. revert i. induction l; intros [|i]; cbn; auto. Qed.

Lemma list_set_Forall2 {A B} (R : A -> B -> Prop) la lb i b :
  Forall2 R la lb -> (forall a, nth_error la i = Some a -> R a b) ->
  Forall2 R la (list_set lb i b).
Proof.
  intros H. revert i. induction H as [|a b0 la lb Hab HF IH]; intros i Hi.
  - constructor.
  - destruct i as [|i]; cbn.
    + constructor; [apply Hi; reflexivity|exact HF].
    + constructor; [exact Hab|]. apply IH. intros a' Ha'. apply Hi. exact Ha'.
Qed.

Lemma nth_zip_content fs vs i t v :
  nth_error fs i = Some t -> nth_error vs i = Some v ->
  nth i (zip_content (map content fs) vs) DNone = content t v.
Proof.
  revert vs i. induction fs as [|f fs IH]; intros vs i H1 H2.
  - destruct i; discriminate.
  - destruct vs as [|v0 vs]; [destruct i; discriminate|].
    destruct i as [|i]; cbn in *; [congruence|]. apply IH; assumption.
Qed.

Lemma nth_error_list_set {A} (l : list A) i a :
  i < length l -> nth_error (list_set l i a) i = Some a.
Proof.
  revert i. induction l; intros [|i] H; cbn in *; try lia; auto. apply IHl. lia.
Qed.

Lemma Forall2_default fs : Forall wf_type fs -> Forall2 valid fs (map default fs).
Proof.
  induction 1; cbn; constructor; auto. apply default_valid. assumption.
Qed.

Lemma unpack_arr_eq dyn et mx tao s :
  unpack (TArr dyn et mx) tao s =
  if negb dyn then
    '(vs, s') <- unpack_n (unpack et) mx tao s ;; Ok (VArr vs, s')
  else if tao && (8 <=? get_min_bitlen et) then
    vs <- unpack_tao (unpack et false) (S (length s)) s ;; Ok (VArr vs, [])
  else
    let count_width := array_len_bits_from_max_size mx in
    cb <- be_from_le_bits (firstn count_width s) count_width ;;
    let count := N.to_nat (N_of_bits cb) in
    '(vs, s') <- unpack_n (unpack et) count tao (skipn count_width s) ;;
    Ok (VArr vs, s').
Proof. reflexivity. Qed.

Lemma unpack_comp_eq u fs tao s :
  unpack (TComp u fs) tao s =
  if u then
    let tag_len := union_tag_bits_from_num_elements (length fs) in
    match firstn tag_len s with
    | [] => Err ValueError
    | tag_bits =>
        let tag := N.to_nat (N_of_bits tag_bits) in
        match nth_error (map unpack fs) tag with
        | None => Err IndexError
        | Some uf =>
            '(v, s') <- uf tao (skipn tag_len s) ;;
            Ok (VComp (list_set (map default fs) tag v) (Some tag), s')
        end
    end
  else
    '(vs, s') <- unpack_struct (map unpack fs) tao s ;; Ok (VComp vs None, s').
Proof. reflexivity. Qed.

Theorem pack_unpack t : wf_type t -> forall v, valid t v ->
  rt (pack t) (unpack t) (content t) (valid t) v.
Proof.
  induction t as [k n cm|n|dyn et mx IH|u fs IH] using dtype_ind'; intros Hwf v Hv tao.
  - inversion Hv; subst. exists (concat (rchunks 8 b)). split.
    { apply base_pack_exact. reflexivity. }
    intros pad Hp. exists (VPrim b), pad.
    change (unpack (TPrim k (length b) cm) tao (concat (rchunks 8 b) ++ pad))
      with ('(b0, s') <- base_unpack (concat (rchunks 8 b) ++ pad) (length b) ;;
            Ok (VPrim b0, s')).
    unfold base_unpack. cbn [wf_type] in Hwf.
    replace (Nat.eqb (length b) 0) with false by (symmetry; apply Nat.eqb_neq; lia).
    rewrite be_le_roundtrip by reflexivity. cbn [bind].
    rewrite skipn_app_exact by apply rchunks_concat_length.
    repeat split; auto.
  - inversion Hv; subst. exists (repeat false n). split; [reflexivity|].
    intros pad Hp. exists VVoid, pad.
    change (unpack (TVoid n) tao (repeat false n ++ pad))
      with (Ok (VVoid, skipn n (repeat false n ++ pad))).
    rewrite skipn_app_exact by apply repeat_length. repeat split; auto.
  - destruct Hwf as (He & _ & Hm). specialize (IH He).
    apply valid_arr_inv in Hv as (items & -> & H0 & Hlen).
    destruct dyn; [|rename Hlen into Hmx; subst mx].
    2:{ (* static *)
      assert (Forall (rt (pack et) (unpack et) (content et) (valid et)) items) as HF.
      { eapply Forall_impl; [|exact H0]. exact IH. }
      destruct (rt_n et (valid et) items tao HF) as (bss & E & Hrt).
      exists (concat bss). split.
      { rewrite pack_arr_eq. cbn zeta. cbn [negb].
        rewrite firstn_all, Nat.sub_diag. cbn [repeat]. rewrite app_nil_r, E.
        reflexivity. }
      intros pad Hp. destruct (Hrt pad Hp) as (vs' & rest & Eu & Hc & HP & Hl & Hr).
      exists (VArr vs'), rest. rewrite unpack_arr_eq. cbn [negb].
      rewrite Eu. cbn [bind content]. rewrite Hc. repeat split; auto.
      constructor; auto. }
    { assert (Forall (rt (pack et) (unpack et) (content et) (valid et)) items) as HF.
      { eapply Forall_impl; [|exact H0]. exact IH. }
      destruct (tao && (8 <=? get_min_bitlen et)) eqn:Et.
      * assert (Forall (fun v => exists bs, pack et false v = Ok bs /\ 8 <= length bs) items)
          as H8.
        { eapply Forall_impl; [|exact H0]. intros x Hx.
          destruct (pack_bounds et He x Hx false) as (bs & E & Hl).
          exists bs. split; [exact E|].
          apply andb_true_iff in Et as [_ Et]. apply Nat.leb_le in Et. lia. }
        destruct (rt_tao et (valid et) items HF H8) as (bss & E & Hrt).
        exists (concat bss). split.
        { rewrite pack_arr_eq. cbn zeta. cbn [negb]. rewrite Et.
          rewrite firstn_all2 by lia. rewrite E. reflexivity. }
        intros pad Hp. apply andb_true_iff in Et as Et'. destruct Et' as [Ht _].
        destruct (Hrt pad (S (length (concat bss ++ pad))) (Hp Ht) ltac:(lia))
          as (vs' & Eu & Hc & HP & Hl).
        exists (VArr vs'), []. rewrite unpack_arr_eq. cbn [negb]. rewrite Et.
        rewrite Eu. cbn [bind content]. rewrite Hc. repeat split; auto.
        constructor; [exact HP|lia].
      * destruct (rt_n et (valid et) items tao HF) as (bss & E & Hrt).
        exists (concat (rchunks 8 (bits_of_N (array_len_bits_from_max_size mx)
                   (N.of_nat (length items)))) ++ concat bss).
        split.
        { rewrite pack_arr_eq. cbn zeta. cbn [negb]. rewrite Et.
          rewrite firstn_all2 by lia. rewrite count_field by lia. cbn [bind].
          rewrite E. reflexivity. }
        intros pad Hp.
        destruct (Hrt pad Hp) as (vs' & rest & Eu & Hc & HP & Hl & Hr).
        exists (VArr vs'), rest. rewrite unpack_arr_eq. cbn [negb]. rewrite Et.
        cbn zeta. rewrite <- app_assoc.
        set (w := array_len_bits_from_max_size mx) in *.
        set (cnt := bits_of_N w (N.of_nat (length items))).
        assert (length (concat (rchunks 8 cnt)) = w) as Hw.
        { rewrite rchunks_concat_length. apply bits_of_N_length. }
        rewrite firstn_app_exact by exact Hw.
        rewrite skipn_app_exact by exact Hw.
        rewrite <- (app_nil_r (concat (rchunks 8 cnt))).
        rewrite be_le_roundtrip by apply bits_of_N_length. cbn [bind].
        unfold cnt. rewrite N_of_bits_of_N_small
          by (apply array_len_bits_fit; lia).
        rewrite Nat2N.id, Eu. cbn [bind content]. rewrite Hc.
        repeat split; auto. constructor; [exact HP|lia]. }
  - apply wf_fields in Hwf as Hfs. destruct Hwf as [Hu _].
    assert (forall vs, Forall2 valid fs vs ->
      Forall2 (fun t v => rt (pack t) (unpack t) (content t) (valid t) v) fs vs) as HF.
    { clear Hv Hu v. induction fs as [|f fs IHfs]; intros vs H2;
        inversion H2; subst; [constructor|].
      inversion IH; inversion Hfs; subst. constructor; auto. }
    apply valid_comp_inv in Hv as (vs & active & -> & H1 & H3).
    destruct u; [|subst active].
    2:{ destruct (rt_struct fs vs tao (HF vs H1)) as (bs & E & Hrt).
      exists bs. split; [exact E|]. intros pad Hp.
      destruct (Hrt pad Hp) as (vs' & rest & Eu & Hc & HP & Hr).
      exists (VComp vs' None), rest. rewrite unpack_comp_eq, Eu.
      cbn [bind content]. rewrite Hc. repeat split; auto. constructor. exact HP. }
    { specialize (Hu eq_refl).
      set (tag := match active with Some i => i | None => 0 end).
      assert (tag < length fs) as Ht.
      { unfold tag. destruct active; [apply H3; reflexivity|lia]. }
      destruct (rt_nth fs vs tag tao (HF vs H1) Ht)
        as (bs & t & v & uf & E & Hft & Hvt & Huf & Hrt).
      set (w := union_tag_bits_from_num_elements (length fs)).
      assert (0 < w) as Hw by (apply union_tag_bits_pos; lia).
      exists (bits_of_N w (N.of_nat tag) ++ bs). split.
      { rewrite pack_comp_eq. cbn zeta. fold tag. rewrite E. cbn [bind].
        rewrite py_format_b_fit by (try exact Hw; apply union_tag_bits_fit; lia).
        reflexivity. }
      intros pad Hp. destruct (Hrt pad Hp) as (v' & rest & Eu & Hc & HP & Hr).
      exists (VComp (list_set (map default fs) tag v') (Some tag)), rest.
      rewrite unpack_comp_eq. cbn zeta. fold w. rewrite <- app_assoc.
      rewrite firstn_app_exact by apply bits_of_N_length.
      rewrite skipn_app_exact by apply bits_of_N_length.
      destruct (bits_of_N w (N.of_nat tag)) as [|b0 l0] eqn:Eb.
      { apply (f_equal (@length bool)) in Eb. rewrite bits_of_N_length in Eb.
        cbn in Eb. lia. }
      rewrite <- Eb.
      rewrite N_of_bits_of_N_small by (apply union_tag_bits_fit; lia).
      rewrite Nat2N.id, Huf, Eu. cbn [bind content].
      repeat split; auto.
      * fold tag. f_equal.
        rewrite (nth_zip_content _ _ _ t v' Hft).
        2:{ apply nth_error_list_set. rewrite map_length. exact Ht. }
        rewrite (nth_zip_content _ _ _ t v Hft Hvt). exact Hc.
      * constructor.
        -- apply list_set_Forall2.
           ++ apply Forall2_default. exact Hfs.
           ++ intros a Ha. congruence.
        -- intros i [= <-]. exact Ht. }
Qed.
