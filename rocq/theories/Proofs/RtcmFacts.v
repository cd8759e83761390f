(** Facts about the RTCM dump. *)
From Coq Require Import Sorting.Sorted Sorting.Permutation.
From Verif.Base Require Import Prelude.
From Verif.Model Require Import RtcmDump.
From Verif.Spec Require Import RtcmSpec.
Local Open Scope Z_scope.

Lemma pkey_eqb_spec a b : pkey_eqb a b = true <-> a = b.
Proof.
  destruct a as [a1 a2], b as [b1 b2]. unfold pkey_eqb. cbn [fst snd]. rewrite andb_true_iff, !N.eqb_eq.
  split; [intros [-> ->]; reflexivity|intros [= -> ->]; auto].
Qed.
Lemma pkey_dec (a b : pkey) : {a = b} + {a <> b}.
Proof. destruct (pkey_eqb a b) eqn:E; [left; apply pkey_eqb_spec, E|right; intros H; apply pkey_eqb_spec in H; congruence]. Qed.

(** ** Sorting *)
Lemma insert_perm x l : Permutation (insert_key x l) (x :: l).
Proof.
  induction l as [|y l IH]; cbn; [reflexivity|]. destruct (pkey_leb x y); [reflexivity|].
  rewrite IH. apply perm_swap.
Qed.
Lemma sorted_perm l : Permutation (sorted_keys l) l.
Proof. induction l as [|x l IH]; cbn; [reflexivity|]. rewrite insert_perm, IH. reflexivity. Qed.
Lemma before_trans a b c : before a b -> before b c -> before a c.
Proof. unfold before. lia. Qed.
Lemma leb_before a b : a <> b -> pkey_leb a b = true -> before a b.
Proof.
  destruct a as [a1 a2], b as [b1 b2]. unfold pkey_leb, before. cbn [fst snd]. intros Hn H.
  assert (a1 <> b1 \/ a2 <> b2) by (destruct (N.eq_dec a1 b1), (N.eq_dec a2 b2); subst; tauto). lia.
Qed.
Lemma leb_after a b : pkey_leb a b = false -> before b a.
Proof. destruct a as [a1 a2], b as [b1 b2]. unfold pkey_leb, before. cbn [fst snd]. lia. Qed.
Lemma insert_sorted x l : ~ In x l -> StronglySorted before l -> StronglySorted before (insert_key x l).
Proof.
  induction l as [|y l IH]; cbn [insert_key]; intros Hn Hs; [repeat constructor|].
  inversion Hs as [|? ? Hs' Hf]; subst. destruct (pkey_leb x y) eqn:E.
  - assert (B : before x y) by (apply leb_before; [|exact E]; intros ->; apply Hn; left; reflexivity).
    constructor; [exact Hs|]. constructor; [exact B|].
    eapply Forall_impl; [|exact Hf]. intros z Hz. exact (before_trans _ _ _ B Hz).
  - constructor; [apply IH; [intros H; apply Hn; right; exact H|exact Hs']|].
    apply Forall_forall. intros z Hz. apply (Permutation_in _ (insert_perm x l)) in Hz. destruct Hz as [<-|Hz].
    + apply leb_after, E.
    + exact (proj1 (Forall_forall _ _) Hf z Hz).
Qed.
Lemma sorted_sorted l : NoDup l -> StronglySorted before (sorted_keys l).
Proof.
  induction l as [|x l IH]; cbn; intros H; [constructor|]. inversion H as [|? ? Hn Hd]; subst.
  apply insert_sorted; [|apply IH, Hd]. intros Hi. apply Hn. exact (Permutation_in _ (sorted_perm l) Hi).
Qed.
Lemma sorted_in l k : In k (sorted_keys l) <-> In k l.
Proof. split; apply Permutation_in; [|symmetry]; apply sorted_perm. Qed.
Lemma sorted_nodup l : NoDup l -> NoDup (sorted_keys l).
Proof. intros H. eapply Permutation_NoDup; [symmetry; apply sorted_perm|exact H]. Qed.

(** ** Dictionaries *)
Lemma in_keys {V} (d : list (pkey * V)) k : In k (map fst d) <-> dget pkey_eqb d k <> None.
Proof.
  pose proof (dget_None_keys pkey_eqb pkey_eqb_spec d k) as H. destruct (dget pkey_eqb d k) as [v|] eqn:E.
  - split; [discriminate|]. intros _. apply (dget_In _ pkey_eqb_spec) in E. apply in_map_iff. exists (k, v). auto.
  - split; [|congruence]. intros Hi. exfalso. apply (proj1 H eq_refl Hi).
Qed.
Lemma get_set {V} (d : list (pkey * V)) k v k' : dget pkey_eqb (dset pkey_eqb d k v) k' = if pkey_eqb k k' then Some v else dget pkey_eqb d k'.
Proof.
  destruct (pkey_eqb k k') eqn:E.
  - apply pkey_eqb_spec in E as ->. apply dget_dset_same, pkey_eqb_spec.
  - apply dget_dset_other; [exact pkey_eqb_spec|]. intros ->. rewrite (proj2 (pkey_eqb_spec k' k') eq_refl) in E. discriminate.
Qed.
Lemma get_del {V} (d : list (pkey * V)) k k' : NoDup (map fst d) ->
  dget pkey_eqb (ddel pkey_eqb d k) k' = if pkey_eqb k k' then None else dget pkey_eqb d k'.
Proof.
  intros Hd. destruct (pkey_eqb k k') eqn:E.
  - apply pkey_eqb_spec in E as ->. apply dget_ddel_same; [exact pkey_eqb_spec|exact Hd].
  - apply dget_ddel_other; [exact pkey_eqb_spec|]. intros ->. rewrite (proj2 (pkey_eqb_spec k' k') eq_refl) in E. discriminate.
Qed.
Lemma pkey_eqb_refl k : pkey_eqb k k = true.
Proof. apply pkey_eqb_spec. reflexivity. Qed.
Lemma pkey_neqb a b : a <> b -> pkey_eqb a b = false.
Proof. intros H. destruct (pkey_eqb a b) eqn:E; [|reflexivity]. apply pkey_eqb_spec in E. contradiction. Qed.

Lemma times_snoc k w k' : times k (w ++ [k']) = (times k w + (if pkey_eqb k k' then 1 else 0))%nat.
Proof. unfold times. rewrite filter_app, app_length. cbn [filter]. destruct (pkey_eqb k k'); reflexivity. Qed.

Lemma later_lt clk (later : later_each_time clk) n m : (n < m)%nat -> clk n < clk m.
Proof. induction 1 as [|m H IH]; [apply later|]. specialize (later m). lia. Qed.

Section Dump.
  Variables (D F : Type).
  Variable read : D -> N -> D * option bool.
  Variable packet : D -> pkey.
  Variable is_empty : D -> bool.
  Variable diff : Z -> Z -> F.
  Variable blend : F -> F -> F.
  Variable is_zero : F -> bool.
  Variable clk : nat -> Z.
  Variable second : Z.
  Notation on_byte := (on_byte D F read packet is_empty diff blend is_zero clk second).
  Notation on_bytes := (on_bytes D F read packet is_empty diff blend is_zero clk second).
  Notation on_packet := (on_packet D F diff blend is_zero clk second).
  Notation handle := (handle_rtcm D F read packet is_empty diff blend is_zero clk second).
  Notation dump := (dump D F read packet is_empty diff blend is_zero clk second).
  Notation report := (report D F is_zero).
  Notation rows := (rows D F is_zero).
  Notation forget := (forget D F).
  Notation decoded := (decoded read packet is_empty).

  (** ** The decoder and the file *)
  Hypothesis quiet : never_raises read.

  Lemma rows_same ks : forall (s : rtcm D F) total s' o, rows ks s total = (s', o) ->
    rt_dec s' = rt_dec s /\ rt_file s' = rt_file s /\ rt_lost s' = rt_lost s /\ rt_reads s' = rt_reads s /\
    rt_stats s' = rt_stats s /\ rt_last s' = rt_last s /\ rt_deltas s' = rt_deltas s.
  Proof.
    induction ks as [|k ks IH]; cbn [RtcmDump.rows]; intros s total s' o E; [injection E as <- _; repeat split|].
    destruct (dget pkey_eqb (rt_counts s) k) as [c|].
    - destruct (dget pkey_eqb (rt_deltas s) k) as [f|]; [|injection E as <- _; repeat split].
      destruct (is_zero f); [injection E as <- _; repeat split|]. apply IH in E. exact E.
    - apply IH in E. exact E.
  Qed.
  Lemma forget_same ks : forall (s s' : rtcm D F), forget ks s = Some s' ->
    rt_dec s' = rt_dec s /\ rt_file s' = rt_file s /\ rt_lost s' = rt_lost s /\ rt_reads s' = rt_reads s /\
    rt_stats s' = rt_stats s /\ rt_out s' = rt_out s /\ rt_counts s' = rt_counts s.
  Proof.
    induction ks as [|k ks IH]; cbn [RtcmDump.forget]; intros s s' E; [injection E as <-; repeat split|].
    destruct (dget pkey_eqb (rt_counts s) k) as [c|]; [|discriminate].
    destruct (N.eqb c 0); [|apply IH, E].
    destruct (dget pkey_eqb (rt_last s) k); [|discriminate]. apply IH in E. exact E.
  Qed.
  Lemma packet_same st s k s' ok : on_packet st s k = (s', ok) ->
    rt_dec s' = rt_dec s /\ rt_file s' = rt_file s /\ rt_lost s' = rt_lost s /\ rt_reads s' = S (rt_reads s).
  Proof.
    unfold RtcmDump.on_packet. destruct st; [|intros E; injection E as <- _; repeat split].
    match goal with |- context [report ?s0 _] => set (s1 := s0) end.
    destruct (_ <=? _); [|intros E; injection E as <- _; repeat split].
    unfold RtcmDump.report. match goal with |- context [rows _ ?s0 _] => set (s2 := s0) end.
    destruct (rows _ s2 0) as [s3 o] eqn:ER. apply rows_same in ER. destruct ER as (A & B & C & G & _).
    assert (H : rt_dec s3 = rt_dec s /\ rt_file s3 = rt_file s /\ rt_lost s3 = rt_lost s /\ rt_reads s3 = S (rt_reads s)).
    { rewrite A, B, C, G. repeat split. }
    destruct o as [total|]; [|intros E; injection E as <- _; exact H].
    destruct (forget _ _) as [s4|] eqn:EF; [|intros E; injection E as <- _; exact H].
    apply forget_same in EF. destruct EF as (A' & B' & C' & G' & _). intros E. injection E as <- _.
    cbn. rewrite A', B', C', G'. exact H.
  Qed.
  Lemma byte_file st s b s' ok : on_byte st s b = (s', ok) -> rt_file s' = rt_file s.
  Proof.
    unfold RtcmDump.on_byte. destruct (read (rt_dec s) b) as [d [[|]|]]; [|intros E; injection E as <- _; reflexivity ..].
    intros E. apply packet_same in E. tauto.
  Qed.
  Lemma bytes_file st data : forall s s' ok, on_bytes st s data = (s', ok) -> rt_file s' = rt_file s.
  Proof.
    induction data as [|b data IH]; cbn [RtcmDump.on_bytes]; intros s s' ok E; [injection E as <- _; reflexivity|].
    destruct (on_byte st s b) as [s1 [|]] eqn:Eb; [|injection E as <- _; exact (byte_file _ _ _ _ _ Eb)].
    rewrite (IH _ _ _ E). exact (byte_file _ _ _ _ _ Eb).
  Qed.

  (** The bytes one after the other, whatever the messages, as long as nothing
      is raised: [step_inv] below is the induction used. *)
  Definition same_but_file (s s' : rtcm D F) : Prop :=
    rt_dec s' = rt_dec s /\ rt_last s' = rt_last s /\ rt_deltas s' = rt_deltas s /\ rt_counts s' = rt_counts s /\
    rt_stats s' = rt_stats s /\ rt_lost s' = rt_lost s /\ rt_out s' = rt_out s /\ rt_reads s' = rt_reads s.
  Section Invariant.
    Variable st : bool.
    (** An invariant on what is left of the stream and the state but the file,
        under which no byte raises. *)
    Variable Inv : list N -> rtcm D F -> Prop.
    Hypothesis Inv_file : forall bs s s', same_but_file s s' -> Inv bs s -> Inv bs s'.
    Hypothesis Inv_step : forall b bs s, Inv (b :: bs) s -> exists s', on_byte st s b = (s', true) /\ Inv bs s'.
    Lemma inv_bytes data : forall bs s, Inv (data ++ bs) s -> exists s', on_bytes st s data = (s', true) /\ Inv bs s'.
    Proof using Inv_step.
      induction data as [|b data IH]; intros bs s H; cbn [RtcmDump.on_bytes]; [eauto|].
      destruct (Inv_step b (data ++ bs) s H) as (s1 & E & H1). rewrite E. exact (IH bs s1 H1).
    Qed.
    Lemma inv_dump msgs : forall bs s, Inv (concat msgs ++ bs) s ->
      Inv bs (fold_left (handle st) msgs s) /\ rt_file (fold_left (handle st) msgs s) = rt_file s ++ concat msgs.
    Proof using Inv_file Inv_step.
      induction msgs as [|m msgs IH]; intros bs s H; cbn [fold_left concat]; [rewrite app_nil_r; auto|].
      cbn [concat] in H. rewrite <- app_assoc in H. destruct (inv_bytes m _ s H) as (s1 & E & H1).
      unfold handle_rtcm at 2 4. rewrite E. match goal with |- context [fold_left _ msgs ?s2] => set (s2' := s2) end.
      destruct (IH bs s2') as (I2 & F2).
      { refine (Inv_file _ s1 s2' _ H1). repeat split. }
      split; [exact I2|]. rewrite F2. subst s2'. cbn [rt_file]. rewrite (bytes_file _ _ _ _ _ E), app_assoc. reflexivity.
    Qed.
  End Invariant.

  (** ** Without --stats *)
  Definition plain_inv (all : list (line F)) (bs : list N) (s : rtcm D F) : Prop :=
    all = rt_out s ++ map (fun p => LPacket (snd (fst p)) (fst (fst p))) (decoded (rt_dec s) (rt_lost s) bs).
  Lemma plain_step all b bs s : plain_inv all (b :: bs) s -> exists s', on_byte false s b = (s', true) /\ plain_inv all bs s'.
  Proof using quiet.
    unfold plain_inv. cbn [RtcmSpec.decoded]. unfold RtcmDump.on_byte. pose proof (quiet (rt_dec s) b) as Q.
    destruct (read (rt_dec s) b) as [d [[|]|]]; [| |exfalso; apply Q; reflexivity]; intros ->; eexists; (split; [reflexivity|]).
    - unfold print. cbn [rt_out rt_dec rt_lost map]. rewrite <- app_assoc. reflexivity.
    - reflexivity.
  Qed.
  Lemma plain_dump d msgs :
    rt_out (dump false d msgs) = map (fun p => LPacket (snd (fst p)) (fst (fst p))) (decoded d 0 (concat msgs)) /\
    rt_file (dump false d msgs) = concat msgs.
  Proof using quiet.
    destruct (inv_dump false (plain_inv (map (fun p => LPacket (snd (fst p)) (fst (fst p))) (decoded d 0 (concat msgs)))))
      with (msgs := msgs) (bs := @nil N) (s := dump_start D F d) as (A & B).
    - intros bs s s' (H1 & H2 & H3 & H4 & H5 & H6 & H7 & H8). unfold plain_inv. rewrite H1, H6, H7. auto.
    - apply plain_step.
    - unfold plain_inv. rewrite app_nil_r. reflexivity.
    - unfold plain_inv in A. cbn [RtcmSpec.decoded map] in A. rewrite app_nil_r in A. split; [symmetry; exact A|exact B].
  Qed.

  (** ** With --stats *)
  Hypothesis later : later_each_time clk.
  Variable pos : F -> Prop.
  Hypothesis pos_diff : forall a b, b < a -> pos (diff a b).
  Hypothesis pos_blend : forall f g, pos f -> pos g -> pos (blend f g).
  Hypothesis pos_zero : forall f, pos f -> is_zero f = false.

  (** The row of a kind of packet. *)
  Definition the_row (counts : list (pkey * N)) (deltas : list (pkey * F)) (k : pkey) : row F :=
    match dget pkey_eqb counts k with None => (k, None, 0%N) | Some c => (k, dget pkey_eqb deltas k, c) end.
  Lemma the_row_key c d k : row_key (the_row c d k) = k.
  Proof. unfold the_row. destruct (dget pkey_eqb c k); reflexivity. Qed.
  Lemma rows_keys c d ks : map row_key (map (the_row c d) ks) = ks.
  Proof. rewrite map_map. erewrite map_ext; [apply map_id|]. intros k. apply the_row_key. Qed.
  Definition len_of (r : row F) : N := if N.eqb (snd r) 0 then 0%N else snd (row_key r).

  Lemma rows_all ks : forall (s : rtcm D F) total, NoDup ks ->
    (forall k, In k ks -> exists f, dget pkey_eqb (rt_deltas s) k = Some f /\ is_zero f = false) ->
    exists counts', rows ks s total =
      (Rtcm (rt_dec s) (rt_last s) (rt_deltas s) counts' (rt_stats s) (rt_lost s) (rt_file s)
            (rt_out s ++ map row_line (map (the_row (rt_counts s) (rt_deltas s)) ks)) (rt_reads s),
       Some (total + fold_right N.add 0 (map len_of (map (the_row (rt_counts s) (rt_deltas s)) ks)))%N) /\
      (forall k, dget pkey_eqb counts' k = match dget pkey_eqb (rt_counts s) k with
                                           | Some c => Some c | None => if existsb (pkey_eqb k) ks then Some 0%N else None end).
  Proof.
    induction ks as [|k ks IH]; intros s total Hd Hf.
    - exists (rt_counts s). cbn. rewrite app_nil_r, N.add_0_r. destruct s. split; [reflexivity|].
      intros k. destruct (dget _ _ _); reflexivity.
    - inversion Hd as [|? ? Hn Hd']; subst. cbn [RtcmDump.rows map fold_right existsb].
      assert (Ext : forall c, map (the_row (dset pkey_eqb (rt_counts s) k c) (rt_deltas s)) ks = map (the_row (rt_counts s) (rt_deltas s)) ks).
      { intros c. apply map_ext_in. intros k' Hk'. unfold the_row. rewrite get_set, pkey_neqb; [reflexivity|]. intros <-. contradiction. }
      destruct (dget pkey_eqb (rt_counts s) k) as [c|] eqn:Ec.
      + destruct (Hf k (or_introl eq_refl)) as (f & Ef & Ez). rewrite Ef, Ez.
        destruct (IH (print D F s (LRow (fst k) (snd k) (Some f) c)) (if (0 <? c)%N then total + snd k else total)%N Hd') as (c' & E & G).
        { intros k' Hk'. apply Hf. right. exact Hk'. }
        exists c'. rewrite E. unfold print. cbn [rt_dec rt_last rt_deltas rt_counts rt_stats rt_lost rt_file rt_out rt_reads].
        assert (Er : the_row (rt_counts s) (rt_deltas s) k = (k, Some f, c)) by (unfold the_row; rewrite Ec, Ef; reflexivity).
        rewrite Er. split.
        * f_equal; [f_equal; rewrite <- app_assoc; reflexivity|]. f_equal. unfold len_of at 2. cbn [snd fst row_key].
          destruct (N.eqb_spec c 0), (N.ltb_spec 0 c); unfold row_key; cbn [fst snd]; lia.
        * intros k'. rewrite G. cbn [print rt_counts]. destruct (dget pkey_eqb (rt_counts s) k') eqn:Ek'; [reflexivity|].
          rewrite (pkey_neqb k' k); [reflexivity|]. intros ->. congruence.
      + destruct (IH (print D F (set_counts D F s (dset pkey_eqb (rt_counts s) k 0%N)) (LRow (fst k) (snd k) None 0)) total Hd') as (c' & E & G).
        { intros k' Hk'. apply Hf. right. exact Hk'. }
        exists c'. rewrite E. unfold print, set_counts. cbn [rt_dec rt_last rt_deltas rt_counts rt_stats rt_lost rt_file rt_out rt_reads].
        rewrite Ext.
        assert (Er : the_row (rt_counts s) (rt_deltas s) k = (k, None, 0%N)) by (unfold the_row; rewrite Ec; reflexivity).
        rewrite Er. split.
        * f_equal. f_equal. rewrite <- app_assoc. reflexivity.
        * intros k'. rewrite G. unfold print, set_counts. cbn [rt_counts]. rewrite get_set. destruct (pkey_eqb k k') eqn:Ek.
          -- apply pkey_eqb_spec in Ek as <-. rewrite Ec, pkey_eqb_refl. reflexivity.
          -- destruct (dget pkey_eqb (rt_counts s) k'); [reflexivity|].
             rewrite (pkey_neqb k' k); [reflexivity|]. intros ->. rewrite pkey_eqb_refl in Ek. discriminate.
  Qed.

  Lemma forget_all ks : forall (s : rtcm D F), NoDup ks -> NoDup (map fst (rt_last s)) -> NoDup (map fst (rt_deltas s)) ->
    (forall k, In k ks -> dget pkey_eqb (rt_counts s) k <> None /\ dget pkey_eqb (rt_last s) k <> None) ->
    exists s', forget ks s = Some s' /\ NoDup (map fst (rt_last s')) /\ NoDup (map fst (rt_deltas s')) /\
      (forall k, In k ks /\ dget pkey_eqb (rt_counts s) k = Some 0%N -> dget pkey_eqb (rt_last s') k = None /\ dget pkey_eqb (rt_deltas s') k = None) /\
      (forall k, ~ (In k ks /\ dget pkey_eqb (rt_counts s) k = Some 0%N) ->
         dget pkey_eqb (rt_last s') k = dget pkey_eqb (rt_last s) k /\ dget pkey_eqb (rt_deltas s') k = dget pkey_eqb (rt_deltas s) k).
  Proof.
    induction ks as [|k ks IH]; intros s Hd Hl Hdel Hc; cbn [RtcmDump.forget].
    - exists s. split; [reflexivity|]. split; [exact Hl|]. split; [exact Hdel|]. split; [intros k [[] _]|auto].
    - inversion Hd as [|? ? Hn Hd']; subst. destruct (Hc k (or_introl eq_refl)) as (C1 & C2).
      destruct (dget pkey_eqb (rt_counts s) k) as [c|] eqn:Ec; [|congruence].
      destruct (N.eqb_spec c 0) as [->|Hc0].
      + destruct (dget pkey_eqb (rt_last s) k) as [l|] eqn:El; [|congruence].
        match goal with |- context [forget ks ?x] => set (s1 := x) end.
        destruct (IH s1 Hd') as (s' & E & N1 & N2 & G1 & G2).
        * apply ddel_nodup. exact Hl.
        * apply ddel_nodup. exact Hdel.
        * intros k' Hk'. destruct (Hc k' (or_intror Hk')) as (A & B). split; [exact A|]. subst s1. cbn [rt_last].
          rewrite get_del by exact Hl. rewrite pkey_neqb; [exact B|]. intros ->. contradiction.
        * exists s'. split; [exact E|]. split; [exact N1|]. split; [exact N2|]. subst s1. cbn [rt_last rt_deltas rt_counts] in *.
          split; intros k' Hk'.
          -- destruct (pkey_dec k k') as [<-|Hne].
             ++ destruct (G2 k) as (A & B); [intros [Hi _]; contradiction|]. rewrite A, B, !get_del, pkey_eqb_refl by assumption. auto.
             ++ apply G1. destruct Hk' as ([->|Hi] & He); [contradiction|auto].
          -- destruct (pkey_dec k k') as [<-|Hne]; [exfalso; apply Hk'; split; [left; reflexivity|exact Ec]|].
             destruct (G2 k') as (A & B); [intros [Hi He]; apply Hk'; split; [right; exact Hi|exact He]|].
             rewrite A, B, !get_del, pkey_neqb by assumption. auto.
      + destruct (IH s Hd' Hl Hdel) as (s' & E & N1 & N2 & G1 & G2).
        * intros k' Hk'. apply Hc. right. exact Hk'.
        * exists s'. split; [exact E|]. split; [exact N1|]. split; [exact N2|]. split; intros k' Hk'.
          -- apply G1. destruct Hk' as ([->|Hi] & He); [congruence|auto].
          -- apply G2. intros [Hi He]. apply Hk'. split; [right; exact Hi|exact He].
  Qed.

  (** The state in the middle of a stretch of which [cur] is past. *)
  Definition midway (due cur : list pkey) (s : rtcm D F) : Prop :=
    NoDup (map fst (rt_last s)) /\ NoDup (map fst (rt_deltas s)) /\
    (forall k, dget pkey_eqb (rt_counts s) k = match times k cur with O => None | n => Some (N.of_nat n) end) /\
    (forall k, dget pkey_eqb (rt_deltas s) k <> None -> dget pkey_eqb (rt_last s) k <> None) /\
    (forall k, (1 <= times k cur)%nat -> dget pkey_eqb (rt_last s) k <> None) /\
    (forall k, (2 <= times k cur)%nat \/ In k due -> dget pkey_eqb (rt_deltas s) k <> None) /\
    (forall k l, dget pkey_eqb (rt_last s) k = Some l -> exists j, (j < rt_reads s)%nat /\ l = clk j) /\
    (forall k f, dget pkey_eqb (rt_deltas s) k = Some f -> pos f).

  (** 42-56: the packet is noted. *)
  Definition noted (s : rtcm D F) (k : pkey) : rtcm D F :=
    Rtcm (rt_dec s) (dset pkey_eqb (rt_last s) k (clk (rt_reads s)))
      (match dget pkey_eqb (rt_last s) k with
       | None => rt_deltas s
       | Some l => dset pkey_eqb (rt_deltas s) k
                     (match dget pkey_eqb (rt_deltas s) k with None => diff (clk (rt_reads s)) l | Some f => blend f (diff (clk (rt_reads s)) l) end)
       end)
      (dset pkey_eqb (rt_counts s) k (match dget pkey_eqb (rt_counts s) k with None => 1 | Some c => c + 1 end)%N)
      (rt_stats s) (rt_lost s) (rt_file s) (rt_out s) (S (rt_reads s)).
  Lemma noted_midway due cur s k : midway due cur s -> midway due (cur ++ [k]) (noted s k).
  Proof.
    intros (N1 & N2 & C & DL & O1 & O2 & T & P). unfold midway, noted. cbn [rt_last rt_deltas rt_counts rt_reads].
    assert (Dk : forall k', dget pkey_eqb (match dget pkey_eqb (rt_last s) k with
       | None => rt_deltas s
       | Some l => dset pkey_eqb (rt_deltas s) k
                     (match dget pkey_eqb (rt_deltas s) k with None => diff (clk (rt_reads s)) l | Some f => blend f (diff (clk (rt_reads s)) l) end)
       end) k' = match dget pkey_eqb (rt_last s) k with
                 | None => dget pkey_eqb (rt_deltas s) k'
                 | Some l => if pkey_eqb k k' then Some (match dget pkey_eqb (rt_deltas s) k with None => diff (clk (rt_reads s)) l | Some f => blend f (diff (clk (rt_reads s)) l) end)
                             else dget pkey_eqb (rt_deltas s) k' end).
    { intros k'. destruct (dget pkey_eqb (rt_last s) k); [apply get_set|reflexivity]. }
    split; [apply dset_nodup; [exact pkey_eqb_spec|exact N1]|].
    split; [destruct (dget pkey_eqb (rt_last s) k); [apply dset_nodup; [exact pkey_eqb_spec|exact N2]|exact N2]|].
    split.
    { intros k'. rewrite get_set, times_snoc, !C. destruct (pkey_eqb k k') eqn:E.
      - apply pkey_eqb_spec in E as <-. rewrite pkey_eqb_refl. destruct (times k cur) as [|n].
        + reflexivity.
        + replace (S n + 1)%nat with (S (S n)) by lia. f_equal. lia.
      - rewrite (pkey_neqb k' k) by (intros ->; rewrite pkey_eqb_refl in E; discriminate). rewrite Nat.add_0_r. reflexivity. }
    split.
    { intros k'. rewrite Dk, get_set. destruct (pkey_eqb k k') eqn:E; [discriminate|].
      destruct (dget pkey_eqb (rt_last s) k); apply DL. }
    split.
    { intros k'. rewrite get_set, times_snoc. destruct (pkey_eqb k k') eqn:E; [discriminate|].
      rewrite (pkey_neqb k' k) by (intros ->; rewrite pkey_eqb_refl in E; discriminate). rewrite Nat.add_0_r. apply O1. }
    split.
    { intros k'. rewrite Dk, times_snoc. destruct (pkey_eqb k k') eqn:E.
      - apply pkey_eqb_spec in E as <-. rewrite pkey_eqb_refl. intros H.
        destruct (dget pkey_eqb (rt_last s) k) as [l|] eqn:El; [discriminate|]. intros _.
        destruct H as [H|H]; [apply (O1 k); [lia|exact El]|].
        apply (DL k); [apply O2; right; exact H|exact El].
      - rewrite (pkey_neqb k' k) by (intros ->; rewrite pkey_eqb_refl in E; discriminate). rewrite Nat.add_0_r. intros H.
        destruct (dget pkey_eqb (rt_last s) k); apply O2, H. }
    split.
    { intros k' l. rewrite get_set. destruct (pkey_eqb k k'); [intros [= <-]; exists (rt_reads s); split; [lia|reflexivity]|].
      intros H. destruct (T _ _ H) as (j & Hj & ->). exists j. split; [lia|reflexivity]. }
    intros k' f. rewrite Dk. destruct (dget pkey_eqb (rt_last s) k) as [l|] eqn:El; [|apply P].
    destruct (T _ _ El) as (j & Hj & ->). pose proof (pos_diff _ _ (later_lt clk later _ _ Hj)) as Pd.
    destruct (pkey_eqb k k'); [|apply P]. intros [= <-].
    destruct (dget pkey_eqb (rt_deltas s) k) as [g|] eqn:Eg; [apply pos_blend; [exact (P _ _ Eg)|exact Pd]|exact Pd].
  Qed.

  (** The report of a stretch. *)
  Lemma report_right due w s now : midway due w s -> exists rs total s',
    report s now = (s', true) /\ rows_right w due rs total /\
    rt_out s' = rt_out s ++ LLost (rt_lost s) :: map row_line rs ++ [LTotal total] /\
    rt_stats s' = now /\ rt_lost s' = rt_lost s /\ rt_dec s' = rt_dec s /\ rt_reads s' = rt_reads s /\
    midway (map row_key (filter (fun r => negb (N.eqb (snd r) 0)) rs)) [] s'.
  Proof.
    intros (N1 & N2 & C & DL & O1 & O2 & T & P).
    set (ks := sorted_keys (map fst (rt_deltas s))).
    assert (Dks : NoDup ks) by (apply sorted_nodup; exact N2).
    assert (Iks : forall k, In k ks <-> dget pkey_eqb (rt_deltas s) k <> None) by (intros k; unfold ks; rewrite sorted_in; apply in_keys).
    unfold RtcmDump.report. cbn [rt_deltas rt_lost rt_dec rt_last rt_counts rt_stats rt_file rt_out rt_reads]. fold ks.
    match goal with |- context [rows ks ?x 0] => set (s1 := x) end.
    destruct (rows_all ks s1 0 Dks) as (counts' & E & G).
    { intros k Hk. apply Iks in Hk. cbn [rt_deltas s1]. destruct (dget pkey_eqb (rt_deltas s) k) as [f|] eqn:Ef; [|congruence].
      exists f. split; [reflexivity|]. apply pos_zero. exact (P _ _ Ef). }
    rewrite E. set (rs := map (the_row (rt_counts s1) (rt_deltas s1)) ks) in *.
    set (total := (0 + fold_right N.add 0 (map len_of rs))%N) in *.
    unfold print. cbn [rt_deltas rt_lost rt_dec rt_last rt_counts rt_stats rt_file rt_out rt_reads]. change (rt_deltas s1) with (rt_deltas s). fold ks.
    match goal with |- context [forget ks ?x] => set (s2 := x) end.
    assert (C' : forall k, In k ks -> dget pkey_eqb counts' k = Some (N.of_nat (times k w))).
    { intros k Hk. rewrite G. cbn [rt_counts s1]. rewrite C. destruct (times k w) as [|n]; [|reflexivity].
      rewrite (proj2 (existsb_exists _ _)); [reflexivity|]. exists k. split; [exact Hk|apply pkey_eqb_refl]. }
    destruct (forget_all ks s2 Dks N1 N2) as (s3 & E3 & M1 & M2 & G1 & G2).
    { intros k Hk. cbn [rt_counts rt_last s2]. rewrite (C' k Hk). split; [discriminate|]. apply DL, Iks, Hk. }
    rewrite E3. destruct (forget_same _ _ _ E3) as (S1 & S2 & S3 & S4 & S5 & S6 & S7).
    assert (Hrow : forall k, In k ks -> snd (the_row (rt_counts s) (rt_deltas s) k) = N.of_nat (times k w)).
    { intros k Hk. unfold the_row. rewrite C. destruct (times k w); reflexivity. }
    assert (Hkeys : map row_key rs = ks) by apply rows_keys.
    exists rs, total, (set_counts D F s3 []). split; [reflexivity|]. split; [|split; [|split; [|split; [|split; [|split]]]]].
    - split; [|split; [|split]].
      + apply Forall_forall. intros r Hr. unfold rs in Hr. apply in_map_iff in Hr as (k & <- & Hk).
        change (rt_counts s1) with (rt_counts s). change (rt_deltas s1) with (rt_deltas s).
        rewrite the_row_key, (Hrow k Hk). split; [reflexivity|]. apply Iks in Hk.
        unfold the_row. rewrite C. destruct (times k w) as [|n]; cbn [fst snd]; [tauto|].
        split; [intros H; congruence|intros H; lia].
      + rewrite Hkeys. apply sorted_sorted. exact N2.
      + intros k Hk. rewrite Hkeys. apply Iks, O2, Hk.
      + reflexivity.
    - unfold set_counts. cbn [rt_out]. rewrite S6. cbn [rt_out s2]. change (rt_out s1) with (rt_out s ++ [LLost (rt_lost s)]).
      rewrite <- !app_assoc. reflexivity.
    - unfold set_counts. cbn [rt_stats]. rewrite S5. reflexivity.
    - unfold set_counts. cbn [rt_lost]. rewrite S3. reflexivity.
    - unfold set_counts. cbn [rt_dec]. rewrite S1. reflexivity.
    - unfold set_counts. cbn [rt_reads]. rewrite S4. reflexivity.
    - unfold midway, set_counts. cbn [rt_last rt_deltas rt_counts rt_reads].
      assert (Dec : forall k, {In k ks /\ dget pkey_eqb (rt_counts s2) k = Some 0%N} + {~ (In k ks /\ dget pkey_eqb (rt_counts s2) k = Some 0%N)}).
      { intros k. destruct (in_dec pkey_dec k ks) as [Hi|Hi]; [|right; tauto].
        destruct (dget pkey_eqb (rt_counts s2) k) as [c|]; [|right; intros [_ H]; discriminate].
        destruct (N.eq_dec c 0) as [->|Hn]; [left; auto|right; intros [_ [= H]]; contradiction]. }
      split; [exact M1|]. split; [exact M2|]. split; [intros k; reflexivity|].
      split.
      { intros k Hk. destruct (Dec k) as [H|H]; [destruct (G1 k H) as (_ & H2); congruence|].
        destruct (G2 k H) as (A & B). rewrite A. cbn [rt_last s2]. apply DL. rewrite B in Hk. exact Hk. }
      split; [intros k Hk; unfold times in Hk; cbn in Hk; lia|].
      split.
      { intros k [Hk|Hk]; [unfold times in Hk; cbn in Hk; lia|].
        apply in_map_iff in Hk as (r & <- & Hr). apply filter_In in Hr as (Hr & Hnz).
        unfold rs in Hr. apply in_map_iff in Hr as (k & <- & Hk).
        change (rt_counts s1) with (rt_counts s) in *. change (rt_deltas s1) with (rt_deltas s) in *. rewrite the_row_key. rewrite (Hrow k Hk) in Hnz.
        destruct (G2 k) as (_ & B); [|rewrite B; apply Iks, Hk].
        intros [_ H]. cbn [rt_counts s2] in H. rewrite (C' k Hk) in H. injection H as H. rewrite H in Hnz. discriminate. }
      rewrite S4. split.
      { intros k l Hk. destruct (Dec k) as [H|H]; [destruct (G1 k H); congruence|]. destruct (G2 k H) as (A & _). rewrite A in Hk. exact (T _ _ Hk). }
      intros k f Hk. destruct (Dec k) as [H|H]; [destruct (G1 k H); congruence|]. destruct (G2 k H) as (_ & B). rewrite B in Hk. exact (P _ _ Hk).
  Qed.

  (** What is printed from here on. *)
  Definition stats_inv (goal : list (line F) -> Prop) (bs : list N) (s : rtcm D F) : Prop :=
    exists due cur, midway due cur s /\
      (forall out, reports_right due (stretches clk second (rt_stats s) (rt_reads s) cur (decoded (rt_dec s) (rt_lost s) bs)) out ->
         goal (rt_out s ++ out)).
  Lemma stats_step goal b bs s : stats_inv goal (b :: bs) s -> exists s', on_byte true s b = (s', true) /\ stats_inv goal bs s'.
  Proof.
    intros (due & cur & M & H). unfold RtcmDump.on_byte. cbn [RtcmSpec.decoded] in H. pose proof (quiet (rt_dec s) b) as Q.
    destruct (read (rt_dec s) b) as [d [[|]|]]; [| |exfalso; apply Q; reflexivity].
    - match goal with |- context [on_packet true ?x _] => set (s0 := x) end.
      assert (M0 : midway due cur s0) by exact M.
      pose proof (noted_midway _ _ _ (packet d) M0) as M1.
      unfold RtcmDump.on_packet. change (Rtcm _ _ _ _ _ _ _ _ (S _)) with (noted s0 (packet d)).
      change (rt_stats (noted s0 (packet d))) with (rt_stats s). change (rt_reads s0) with (rt_reads s).
      cbn [stretches] in H. destruct (2 * second <=? clk (rt_reads s) - rt_stats s) eqn:E.
      + destruct (report_right _ _ _ (clk (rt_reads s)) M1) as (rs & total & s' & Er & R & Ho & Hs & Hl & Hd & Hn & Hm).
        exists s'. split; [exact Er|]. exists (map row_key (filter (fun r => negb (N.eqb (snd r) 0)) rs)), []. split; [exact Hm|].
        intros out Hout. rewrite Ho. change (rt_out (noted s0 (packet d))) with (rt_out s). change (rt_lost (noted s0 (packet d))) with (rt_lost s).
        rewrite <- app_assoc. apply H. cbn [reports_right]. exists rs, total, out. split.
        * cbn [app]. rewrite <- app_assoc. reflexivity.
        * split; [exact R|]. rewrite Hs, Hl, Hd, Hn in Hout. exact Hout.
      + exists (noted s0 (packet d)). split; [reflexivity|]. exists due, (cur ++ [packet d]). split; [exact M1|]. exact H.
    - eexists. split; [reflexivity|]. exists due, cur. split; [exact M|]. exact H.
  Qed.
  Lemma stats_dump d msgs :
    reports_right [] (stretches clk second 0 0 [] (decoded d 0 (concat msgs))) (rt_out (dump true d msgs)) /\
    rt_file (dump true d msgs) = concat msgs.
  Proof.
    set (goal := reports_right (F := F) [] (stretches clk second 0 0 [] (decoded d 0 (concat msgs)))).
    destruct (inv_dump true (stats_inv goal)) with (msgs := msgs) (bs := @nil N) (s := dump_start D F d) as (A & B).
    - intros bs s s' (H1 & H2 & H3 & H4 & H5 & H6 & H7 & H8) (due & cur & M & H). exists due, cur. split.
      + unfold midway in *. rewrite H2, H3, H4, H8. exact M.
      + rewrite H1, H5, H6, H7, H8. exact H.
    - apply stats_step.
    - exists [], []. split.
      + unfold midway. cbn. repeat split; try (constructor || discriminate || tauto).
        * intros k Hk. lia.
        * intros k [Hk|[]]. lia.
      + rewrite app_nil_r. intros out Hout. exact Hout.
    - split; [|exact B]. destruct A as (due & cur & _ & A). cbn [RtcmSpec.decoded stretches reports_right] in A.
      specialize (A [] eq_refl). rewrite app_nil_r in A. exact A.
  Qed.
End Dump.

(** ** A decoder that may raise, without --stats *)
Section Raising.
  Variables (D F : Type) (read : D -> N -> D * option bool) (packet : D -> pkey) (is_empty : D -> bool).
  Variables (diff : Z -> Z -> F) (blend : F -> F -> F) (is_zero : F -> bool) (clk : nat -> Z) (second : Z).
  Let one (k : pkey) : line F := LPacket (snd k) (fst k).

  Lemma raising_bytes bs : forall s,
    let '(ps, d, whole) := until_raise read packet (rt_dec s) bs in
    exists s', on_bytes D F read packet is_empty diff blend is_zero clk second false s bs = (s', whole) /\
      rt_dec s' = d /\ rt_out s' = rt_out s ++ map one ps /\ rt_file s' = rt_file s.
  Proof.
    induction bs as [|b bs IH]; intros s; cbn [until_raise on_bytes].
    - exists s. rewrite app_nil_r. repeat split.
    - unfold on_byte. destruct (read (rt_dec s) b) as [d [[|]|]].
      + unfold on_packet. cbn [rt_dec]. unfold print.
        match goal with |- context [on_bytes _ _ _ _ _ _ _ _ _ _ _ ?x _] => specialize (IH x) end.
        cbn [rt_dec] in IH. destruct (until_raise read packet d bs) as [[ps d'] whole].
        destruct IH as (s' & E & A & B & C). exists s'. split; [exact E|]. split; [exact A|]. split; [|exact C].
        rewrite B. cbn [rt_out map app]. rewrite <- app_assoc. reflexivity.
      + match goal with |- context [on_bytes _ _ _ _ _ _ _ _ _ _ _ ?x _] => specialize (IH x) end.
        cbn [rt_dec] in IH. destruct (until_raise read packet d bs) as [[ps d'] whole]. exact IH.
      + eexists. split; [reflexivity|]. cbn [rt_dec rt_out rt_file map]. rewrite app_nil_r. repeat split.
  Qed.
  Lemma raising_dump d msgs :
    let s := dump D F read packet is_empty diff blend is_zero clk second false d msgs in
    rt_out s = map one (fst (listed_written read packet d msgs)) /\ rt_file s = snd (listed_written read packet d msgs).
  Proof.
    cbv zeta. unfold dump.
    assert (forall s, let t := fold_left (handle_rtcm D F read packet is_empty diff blend is_zero clk second false) msgs s in
      rt_out t = rt_out s ++ map one (fst (listed_written read packet (rt_dec s) msgs)) /\
      rt_file t = rt_file s ++ snd (listed_written read packet (rt_dec s) msgs)) as G.
    { induction msgs as [|m msgs IH]; intros s; cbn [fold_left listed_written].
      - cbn. rewrite !app_nil_r. split; reflexivity.
      - unfold handle_rtcm at 2 4. pose proof (raising_bytes m s) as H.
        destruct (until_raise read packet (rt_dec s) m) as [[ps d'] whole].
        destruct H as (s' & E & A & B & C). rewrite E.
        destruct whole;
          (match goal with |- context [fold_left _ _ ?x] => specialize (IH x) end; cbn [rt_dec] in IH; subst d';
           destruct (listed_written read packet (rt_dec s') msgs) as [qs file]; cbn [fst snd] in *; destruct IH as (I1 & I2);
           rewrite I1, I2; cbn [rt_out rt_file]; rewrite B, C, map_app, <- !app_assoc; split; reflexivity). }
    exact (G (dump_start D F d)).
  Qed.
End Raising.
