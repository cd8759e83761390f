(** Facts of the log file driver. *)
From Verif.Base Require Import Prelude Pack.
From Verif.Model Require Import Crc CanFrame FileLog.
From Verif.Spec Require Import CrcSpec LogSpec.
From Verif.Proofs Require Import CrcFacts.
Local Open Scope N_scope.

Lemma field_at a x b n i : length a = i -> length x = n -> field i n (a ++ x ++ b) = le_value x.
Proof.
  intros <- <-. unfold field. rewrite skipn_app, skipn_all, Nat.sub_diag. cbn [skipn app].
  rewrite firstn_app, firstn_all, Nat.sub_diag. cbn [firstn]. rewrite app_nil_r. reflexivity.
Qed.

Lemma id_bits x (e : bool) : x < 2 ^ 29 ->
  let m := if e then N.lor x (N.shiftl 1 31) else x in
  m < 2 ^ 32 /\ N.land m 0x1FFFFFFF = x /\ negb (N.land m (N.shiftl 1 31) =? 0) = e.
Proof.
  intros H m. assert (B : forall i, 29 <= i -> N.testbit x i = false).
  { intros i Hi. destruct (N.eq_dec x 0) as [->|Hx]; [apply N.bits_0|]. apply N.bits_above_log2.
    apply N.log2_lt_pow2; [lia|]. eapply N.lt_le_trans; [exact H|]. apply N.pow_le_mono_r; lia. }
  assert (M : N.land x 0x1FFFFFFF = x).
  { change 0x1FFFFFFF with (N.ones 29). rewrite N.land_ones. apply N.mod_small. exact H. }
  assert (M0 : N.land x (N.shiftl 1 31) = 0).
  { apply N.bits_inj. intros i. rewrite N.land_spec, N.shiftl_1_l, N.pow2_bits_eqb, N.bits_0.
    destruct (31 =? i) eqn:E; [|apply andb_false_r]. apply N.eqb_eq in E. subst i. rewrite B by lia. reflexivity. }
  destruct e; subst m.
  - assert (PL : N.lor x (N.shiftl 1 31) = x + 2 ^ 31).
    { rewrite <- N.lxor_lor by exact M0. rewrite <- N.add_nocarry_lxor by exact M0. f_equal. }
    split; [rewrite PL; change (2 ^ 29) with 536870912 in H; change (2 ^ 32) with 4294967296; change (2 ^ 31) with 2147483648; lia|].
    split.
    + rewrite N.land_lor_distr_l, M. change (N.land (N.shiftl 1 31) 0x1FFFFFFF) with 0. apply N.lor_0_r.
    + rewrite N.land_lor_distr_l, M0. reflexivity.
  - split; [change (2 ^ 29) with 536870912 in H; change (2 ^ 32) with 4294967296; lia|].
    split; [exact M|]. rewrite M0. reflexivity.
Qed.

(** A record: header and data. *)
Definition header_of (f : cframe) (h : list N) : Prop :=
  length h = 20%nat /\
  field 0 2 h = FILE_MAGIC /\ Z.of_N (field 2 8 h) = c_ts f /\
  field 10 2 h = crc16_from_bytes (c_data f) 0xFFFF /\
  N.to_nat (field 12 2 h) = length (c_data f) /\
  negb (N.land (field 14 2 h) FILE_FLAG_CANFD =? 0) = c_fd f /\
  N.land (field 16 4 h) 0x1FFFFFFF = c_id f /\
  negb (N.land (field 16 4 h) (N.shiftl 1 31) =? 0) = c_ext f.

Lemma record_shape f : loggable f -> exists h, record f = Ok (h ++ c_data f) /\ header_of f h.
Proof.
  intros (HI & HD & HL & HT).
  destruct (id_bits (c_id f) (c_ext f) HI) as (I1 & I2 & I3).
  set (m := if c_ext f then N.lor (c_id f) (N.shiftl 1 31) else c_id f) in *.
  set (fl := if c_fd f then FILE_FLAG_CANFD else 0).
  assert (FL : fl < 65536 /\ negb (N.land fl FILE_FLAG_CANFD =? 0) = c_fd f).
  { subst fl. destruct (c_fd f); split; reflexivity. }
  pose proof (crc16_range (c_data f) 0xFFFF) as CR. change (2 ^ 16) with 65536 in CR.
  change (2 ^ 32) with 4294967296 in I1. change (2 ^ 64)%Z with 18446744073709551616%Z in HT.
  destruct (pack_le_fits 2 (Z.of_N FILE_MAGIC)) as (b1 & E1); [vm_compute; split; [discriminate|reflexivity]|].
  destruct (pack_le_fits 8 (c_ts f)) as (b2 & E2); [change (256 ^ Z.of_nat 8)%Z with 18446744073709551616%Z; lia|].
  destruct (pack_le_fits 2 (Z.of_N (crc16_from_bytes (c_data f) 0xFFFF))) as (b3 & E3);
    [change (256 ^ Z.of_nat 2)%Z with 65536%Z; lia|].
  destruct (pack_le_fits 2 (Z.of_nat (length (c_data f)))) as (b4 & E4); [change (256 ^ Z.of_nat 2)%Z with 65536%Z; lia|].
  destruct (pack_le_fits 2 (Z.of_N fl)) as (b5 & E5); [change (256 ^ Z.of_nat 2)%Z with 65536%Z; lia|].
  destruct (pack_le_fits 4 (Z.of_N m)) as (b6 & E6); [change (256 ^ Z.of_nat 4)%Z with 4294967296%Z; lia|].
  exists (b1 ++ b2 ++ b3 ++ b4 ++ b5 ++ b6). split.
  - unfold record. fold m. fold fl. cbv zeta. rewrite E1, E2, E3, E4, E5, E6. cbn [bind]. rewrite <- !app_assoc. reflexivity.
  - apply pack_le_ok in E1 as (L1 & _ & V1). apply pack_le_ok in E2 as (L2 & _ & V2).
    apply pack_le_ok in E3 as (L3 & _ & V3). apply pack_le_ok in E4 as (L4 & _ & V4).
    apply pack_le_ok in E5 as (L5 & _ & V5). apply pack_le_ok in E6 as (L6 & _ & V6).
    assert (F1 : field 0 2 (b1 ++ b2 ++ b3 ++ b4 ++ b5 ++ b6) = le_value b1) by (apply (field_at [] b1); auto).
    assert (F2 : field 2 8 (b1 ++ b2 ++ b3 ++ b4 ++ b5 ++ b6) = le_value b2) by (apply (field_at b1 b2); auto).
    assert (F3 : field 10 2 (b1 ++ b2 ++ b3 ++ b4 ++ b5 ++ b6) = le_value b3).
    { rewrite (app_assoc b1). apply (field_at (b1 ++ b2) b3); auto. rewrite app_length. lia. }
    assert (F4 : field 12 2 (b1 ++ b2 ++ b3 ++ b4 ++ b5 ++ b6) = le_value b4).
    { rewrite (app_assoc b1), (app_assoc (b1 ++ b2)). apply (field_at ((b1 ++ b2) ++ b3) b4); auto. rewrite !app_length. lia. }
    assert (F5 : field 14 2 (b1 ++ b2 ++ b3 ++ b4 ++ b5 ++ b6) = le_value b5).
    { rewrite (app_assoc b1), (app_assoc (b1 ++ b2)), (app_assoc ((b1 ++ b2) ++ b3)).
      apply (field_at (((b1 ++ b2) ++ b3) ++ b4) b5); auto. rewrite !app_length. lia. }
    assert (F6 : field 16 4 (b1 ++ b2 ++ b3 ++ b4 ++ b5 ++ b6) = le_value b6).
    { rewrite (app_assoc b1), (app_assoc (b1 ++ b2)), (app_assoc ((b1 ++ b2) ++ b3)), (app_assoc (((b1 ++ b2) ++ b3) ++ b4)).
      rewrite <- (app_nil_r b6) at 1. apply (field_at ((((b1 ++ b2) ++ b3) ++ b4) ++ b5) b6); auto. rewrite !app_length. lia. }
    unfold header_of. rewrite F1, F2, F3, F4, F5, F6.
    apply N2Z.inj in V1, V3, V5, V6. rewrite V1, V2, V3, V5, V6.
    rewrite !app_length. repeat split; try assumption; try lia. apply FL.
Qed.

Definition bytes_of (f : cframe) : list N := match record f with Ok b => b | Err _ => [] end.
Lemma recorded_cons f fs : recorded (f :: fs) = bytes_of f ++ recorded fs.
Proof. reflexivity. Qed.
Lemma recorded_app a b : recorded (a ++ b) = recorded a ++ recorded b.
Proof. apply flat_map_app. Qed.
Lemma bytes_of_shape f : loggable f -> exists h, bytes_of f = h ++ c_data f /\ header_of f h.
Proof. intros H. destruct (record_shape f H) as (h & E & S0). exists h. unfold bytes_of. rewrite E. auto. Qed.
Lemma bytes_of_length f : loggable f -> length (bytes_of f) = (20 + length (c_data f))%nat.
Proof. intros H. destruct (bytes_of_shape f H) as (h & E & HL & _). rewrite E, app_length, HL. reflexivity. Qed.

Lemma skipn_app_at {A} (a b : list A) n : n = length a -> skipn n (a ++ b) = b.
Proof. intros ->. rewrite skipn_app, skipn_all, Nat.sub_diag. reflexivity. Qed.
Lemma firstn_app_at {A} (a b : list A) n : n = length a -> firstn n (a ++ b) = a.
Proof. intros ->. rewrite firstn_app, firstn_all, Nat.sub_diag. cbn. apply app_nil_r. Qed.

(** Reading at a record, at the end, in an incomplete header and in incomplete
    data. *)
Lemma read_at_record pre f post r st : loggable f ->
  r_pos r = length pre -> r_start r = Some st ->
  read_frame (pre ++ bytes_of f ++ post) r =
  (with_pos r (length pre + length (bytes_of f)) (r_eof r),
   Ok (Some (at_time (st + (c_ts f - r_first r)) f, c_ts f))).
Proof.
  intros LF P ST. destruct (bytes_of_shape f LF) as (h & E & HL & H1 & H2 & H3 & H4 & H5 & H6 & H7).
  unfold read_frame. rewrite P.
  assert (LB : length (bytes_of f) = (20 + length (c_data f))%nat) by (apply bytes_of_length; exact LF).
  replace (length (pre ++ bytes_of f ++ post) <=? length pre)%nat with false by (rewrite !app_length; lia).
  rewrite skipn_app_at by reflexivity.
  assert (HD : firstn 20 (bytes_of f ++ post) = h).
  { rewrite E, <- app_assoc. apply firstn_app_at. symmetry. exact HL. }
  rewrite HD. cbv zeta. rewrite HL. change (20 <? 20)%nat with false. rewrite H1, N.eqb_refl. cbn [negb].
  rewrite H4.
  assert (DT : firstn (length (c_data f)) (skipn (length pre + 20) (pre ++ bytes_of f ++ post)) = c_data f).
  { replace (pre ++ bytes_of f ++ post) with ((pre ++ h) ++ c_data f ++ post) by (rewrite E, <- !app_assoc; reflexivity).
    rewrite skipn_app_at by (rewrite app_length, HL; reflexivity). apply firstn_app_at. reflexivity. }
  rewrite DT, Nat.ltb_irrefl, H3, N.eqb_refl. cbn [negb with_pos r_start]. rewrite ST.
  cbn [r_pos r_eof r_first]. rewrite LB. f_equal.
  - unfold with_pos. cbn. f_equal. lia.
  - rewrite H5, H6, H7, H2. unfold at_time. cbn [with_pos r_first].
    replace (st + c_ts f - r_first r)%Z with (st + (c_ts f - r_first r))%Z by lia. reflexivity.
Qed.

Lemma read_at_end pre r : (length pre <= r_pos r)%nat ->
  read_frame pre r = (with_pos r (r_pos r) true, Ok None).
Proof. intros P. unfold read_frame. replace (length pre <=? r_pos r)%nat with true by lia. reflexivity. Qed.

Lemma read_in_header pre tail r : (0 < length tail < 20)%nat -> r_pos r = length pre ->
  read_frame (pre ++ tail) r = (with_pos r (length pre + length tail) (r_eof r), Ok None).
Proof.
  intros T P. unfold read_frame. rewrite P.
  replace (length (pre ++ tail) <=? length pre)%nat with false by (rewrite app_length; lia).
  rewrite skipn_app_at by reflexivity. cbv zeta. rewrite firstn_all2 by lia.
  replace (length tail <? 20)%nat with true by lia. reflexivity.
Qed.

Lemma read_in_data pre f n r : loggable f -> (20 <= n < length (bytes_of f))%nat -> r_pos r = length pre ->
  snd (read_frame (pre ++ firstn n (bytes_of f)) r) = Err DriverError.
Proof.
  intros LF NL P. destruct (bytes_of_shape f LF) as (h & E & HL & H1 & H2 & H3 & H4 & _).
  pose proof (bytes_of_length f LF) as LB.
  unfold read_frame. rewrite P.
  assert (LN : length (firstn n (bytes_of f)) = n) by (rewrite firstn_length; lia).
  replace (length (pre ++ firstn n (bytes_of f)) <=? length pre)%nat with false by (rewrite app_length; lia).
  rewrite skipn_app_at by reflexivity.
  assert (HD : firstn 20 (firstn n (bytes_of f)) = h).
  { rewrite firstn_firstn. replace (Nat.min 20 n) with 20%nat by lia. rewrite E. apply firstn_app_at. symmetry. exact HL. }
  rewrite HD. cbv zeta. rewrite HL. change (20 <? 20)%nat with false. rewrite H1, N.eqb_refl. cbn [negb].
  rewrite H4.
  replace (length (firstn (length (c_data f)) (skipn (length pre + 20) (pre ++ firstn n (bytes_of f)))) <? length (c_data f))%nat
    with true; [reflexivity|].
  symmetry. apply Nat.ltb_lt. rewrite firstn_length, skipn_length, app_length. lia.
Qed.

(** A file of complete records and the beginning [tail] of another header. *)
Lemma scan_records gs : forall pre tail fuel r st, Forall loggable gs -> (length tail < 20)%nat ->
  r_pos r = length pre -> r_start r = Some st -> (length gs < fuel)%nat ->
  exists p e, scan (pre ++ recorded gs ++ tail) fuel r =
    Ok {| r_pos := p; r_eof := e; r_start := r_start r; r_first := r_first r; r_end := None; r_curr := r_curr r |}.
Proof.
  induction gs as [|f gs IH]; intros pre tail fuel r st F T P ST FU; (destruct fuel as [|fuel]; [cbn in FU; lia|]); cbn [scan].
  - cbn [recorded flat_map app]. destruct tail as [|x tail].
    + rewrite app_nil_r, read_at_end by lia. cbn [bind with_pos]. eexists _, _. reflexivity.
    + rewrite read_in_header by (cbn [length] in *; lia). cbn [bind with_pos]. eexists _, _. reflexivity.
  - apply Forall_cons_iff in F as (F1 & F). rewrite recorded_cons, <- app_assoc.
    rewrite (read_at_record pre f _ r st F1 P ST). cbn [bind with_pos].
    destruct (IH (pre ++ bytes_of f) tail fuel
      {| r_pos := length pre + length (bytes_of f); r_eof := r_eof r; r_start := r_start r; r_first := r_first r;
         r_end := Some (c_ts f); r_curr := r_curr r |} st F T) as (p & e & E).
    + cbn [r_pos]. rewrite app_length. reflexivity.
    + exact ST.
    + cbn [length] in FU. lia.
    + exists p, e. rewrite <- app_assoc in E. exact E.
Qed.

Lemma recorded_length fs : Forall loggable fs -> (length fs <= length (recorded fs))%nat.
Proof.
  induction 1 as [|f fs H F IH]; [reflexivity|]. rewrite recorded_cons, app_length, bytes_of_length by exact H.
  cbn [length]. lia.
Qed.

Lemma open_records f gs tail now : Forall loggable (f :: gs) -> (length tail < 20)%nat ->
  open_log (recorded (f :: gs) ++ tail) now =
  Ok {| r_pos := 0; r_eof := false; r_start := Some now; r_first := c_ts f; r_end := None; r_curr := None |}.
Proof.
  intros F T. pose proof (recorded_length _ F) as LR. apply Forall_cons_iff in F as (F1 & F). unfold open_log.
  rewrite recorded_cons, <- app_assoc.
  pose proof (read_at_record [] f (recorded gs ++ tail)
    {| r_pos := 0; r_eof := false; r_start := Some now; r_first := 0; r_end := None; r_curr := None |} now F1 eq_refl eq_refl) as E.
  cbn [app] in E. rewrite E. cbn [bind with_pos r_pos r_eof r_start].
  destruct (scan_records gs (bytes_of f) tail (S (length (bytes_of f ++ recorded gs ++ tail)))
    {| r_pos := length (@nil N) + length (bytes_of f); r_eof := false; r_start := Some now; r_first := c_ts f; r_end := None; r_curr := None |}
    now F T) as (p & e & E2).
  - reflexivity.
  - reflexivity.
  - rewrite recorded_cons in LR. rewrite app_assoc, (app_length _ tail). cbn [length] in LR. lia.
  - rewrite E2. reflexivity.
Qed.

(** Playback. *)
Inductive standing (gs : list cframe) (tail : list N) (st first : Z) (r : reader) : nat -> Prop :=
| st_next pre f post : gs = pre ++ f :: post ->
    r_pos r = length (recorded pre) -> r_eof r = false -> r_curr r = None -> standing gs tail st first r (length pre)
| st_held pre f post : gs = pre ++ f :: post ->
    r_pos r = length (recorded (pre ++ [f])) -> r_eof r = false ->
    r_curr r = Some (at_time (st + (c_ts f - first)) f) -> standing gs tail st first r (length pre)
| st_over : (length (recorded gs) <= r_pos r)%nat -> (r_pos r = length (recorded gs) \/ length (recorded gs ++ tail) <= r_pos r)%nat ->
    r_curr r = None -> standing gs tail st first r (length gs).

Lemma due_dec speed t now f : { due speed t now f } + { ~ due speed t now f }.
Proof.
  unfold due. destruct speed as [v|]; [|left; exact I].
  destruct (Z_le_dec (c_ts f) now) as [A|A]; [left; left; exact A|].
  destruct t as [t|]; [|right; intros [B|(t & B & _)]; [lia|discriminate]].
  destruct (Z_le_dec (c_ts f - now) (t * v)) as [B|B]; [left; right; exists t; auto|].
  right. intros [C|(t' & C & D)]; [lia|]. injection C as <-. lia.
Qed.
Lemma due_test speed t now f :
  (match speed with None => false | Some _ => (now <? c_ts f)%Z end &&
   negb match speed, t with Some v, Some t => (c_ts f - now <=? t * v)%Z | _, _ => false end) = true <-> ~ due speed t now f.
Proof.
  unfold due. destruct speed as [v|]; cbn [andb].
  - destruct t as [t|].
    + split.
      * intros H [A|(t' & A & B)]; [|injection A as <-]; lia.
      * intros H. apply andb_true_intro. split.
        -- destruct (now <? c_ts f)%Z eqn:E; [reflexivity|]. exfalso. apply H. left. lia.
        -- destruct (c_ts f - now <=? t * v)%Z eqn:E; [|reflexivity]. exfalso. apply H. right. exists t. split; [reflexivity|lia].
    + cbn [negb]. rewrite andb_true_r. split.
      * intros H [A|(t' & A & B)]; [lia|discriminate].
      * intros H. destruct (now <? c_ts f)%Z eqn:E; [reflexivity|]. exfalso. apply H. left. lia.
  - split; [discriminate|]. intros H. exfalso. apply H. exact I.
Qed.

Definition rest (st first : Z) (gs : list cframe) (i : nat) : list cframe :=
  map (fun f => at_time (st + (c_ts f - first)) f) (skipn i gs).

Lemma rest_at st first pre f post :
  rest st first (pre ++ f :: post) (length pre) = at_time (st + (c_ts f - first)) f :: rest st first (pre ++ f :: post) (S (length pre)).
Proof.
  unfold rest. rewrite skipn_app_at by reflexivity.
  replace (pre ++ f :: post) with ((pre ++ [f]) ++ post) by (rewrite <- app_assoc; reflexivity).
  rewrite skipn_app_at; [reflexivity|]. rewrite app_length. cbn. lia.
Qed.
Lemma rest_over st first gs : rest st first gs (length gs) = [].
Proof. unfold rest. rewrite skipn_all. reflexivity. Qed.

Lemma receive_standing gs tail st first speed r i t now : Forall loggable gs -> (length tail < 20)%nat ->
  r_start r = Some st -> r_first r = first -> standing gs tail st first r i ->
  let '(r', x) := receive (recorded gs ++ tail) speed r t now in
  r_start r' = Some st /\ r_first r' = first /\
  ((i = length gs /\ x = Ok None /\ standing gs tail st first r' i) \/
   exists f, rest st first gs i = f :: rest st first gs (S i) /\ (i < length gs)%nat /\
     ((due speed t now f /\ x = Ok (Some f) /\ standing gs tail st first r' (S i)) \/
      (~ due speed t now f /\ x = Ok None /\ standing gs tail st first r' i))).
Proof.
  intros F T ST FI SD.
  assert (AFTER : forall pre f post r2, gs = pre ++ f :: post -> r_pos r2 = length (recorded (pre ++ [f])) ->
            r_eof r2 = false -> r_curr r2 = None -> standing gs tail st first r2 (S (length pre))).
  { intros pre f post r2 EG P E C. replace (S (length pre)) with (length (pre ++ [f])) by (rewrite app_length; cbn; lia).
    destruct post as [|g post].
    - rewrite <- EG in *. apply st_over; [lia|left; exact P|exact C].
    - eapply (st_next _ _ _ _ _ (pre ++ [f]) g post); auto. rewrite EG, <- app_assoc. reflexivity. }
  assert (HELD : forall pre f post r2, gs = pre ++ f :: post -> r_pos r2 = length (recorded (pre ++ [f])) ->
            r_eof r2 = false -> r_curr r2 = Some (at_time (st + (c_ts f - first)) f) -> r_start r2 = Some st -> r_first r2 = first ->
      let f' := at_time (st + (c_ts f - first)) f in
      let '(r', x) :=
        if match speed with None => false | Some _ => (now <? c_ts f')%Z end &&
           negb match speed, t with Some v, Some t => (c_ts f' - now <=? t * v)%Z | _, _ => false end
        then (r2, Ok None)
        else ({| r_pos := r_pos r2; r_eof := r_eof r2; r_start := r_start r2; r_first := r_first r2; r_end := r_end r2;
                 r_curr := None |}, Ok (Some f')) in
      r_start r' = Some st /\ r_first r' = first /\
      ((length pre = length gs /\ x = Ok None /\ standing gs tail st first r' (length pre)) \/
       exists f, rest st first gs (length pre) = f :: rest st first gs (S (length pre)) /\ (length pre < length gs)%nat /\
         ((due speed t now f /\ x = Ok (Some f) /\ standing gs tail st first r' (S (length pre))) \/
          (~ due speed t now f /\ x = Ok None /\ standing gs tail st first r' (length pre))))).
  { intros pre f post r2 EG P E C ST2 FI2 f'.
    pose proof (due_test speed t now f') as DT.
    assert (LT : (length pre < length gs)%nat) by (rewrite EG, app_length; cbn; lia).
    destruct (_ && _) eqn:W; (split; [assumption|]; split; [assumption|]; right; exists f';
      split; [rewrite EG; apply rest_at|]; split; [exact LT|]).
    - right. split; [apply DT; reflexivity|]. split; [reflexivity|]. eapply st_held; eauto.
    - left. split.
      + destruct (due_dec speed t now f') as [D|D]; [exact D|]. apply DT in D. discriminate.
      + split; [reflexivity|]. eapply (AFTER pre f post); eauto. }
  unfold receive. destruct SD as [pre f post EG P E C|pre f post EG P E C|P1 P2 C].
  - rewrite E, ST, C.
    assert (EC : recorded gs ++ tail = recorded pre ++ bytes_of f ++ recorded post ++ tail).
    { rewrite EG, recorded_app, recorded_cons, <- !app_assoc. reflexivity. }
    assert (LF : loggable f) by (rewrite Forall_forall in F; apply F; rewrite EG; apply in_elt).
    rewrite EC, (read_at_record (recorded pre) f (recorded post ++ tail) r st LF P ST).
    cbn [with_pos r_pos r_eof r_start r_first r_end r_curr]. rewrite FI.
    set (r2 := Build_reader _ _ _ _ _ _).
    apply (HELD pre f post r2 EG); subst r2; cbn [r_pos r_eof r_curr r_start r_first]; auto.
    rewrite recorded_app, app_length. cbn [recorded flat_map]. rewrite app_nil_r. reflexivity.
  - rewrite E, ST, C. apply (HELD pre f post r EG P E C ST FI).
  - destruct (r_eof r) eqn:E.
    + split; [exact ST|]. split; [exact FI|]. left. split; [reflexivity|]. split; [reflexivity|]. apply st_over; assumption.
    + rewrite ST, C. destruct tail as [|x tail].
      * rewrite app_nil_r in *. rewrite read_at_end by lia. cbn.
        split; [exact ST|]. split; [exact FI|]. left. split; [reflexivity|]. split; [reflexivity|].
        apply st_over; cbn; auto. rewrite app_nil_r. exact P2.
      * destruct P2 as [P2|P2].
        -- rewrite read_in_header by (cbn [length] in *; lia || assumption).
           cbn [with_pos r_pos r_eof r_start r_first r_end r_curr].
           split; [exact ST|]. split; [exact FI|]. left. split; [reflexivity|]. split; [reflexivity|].
           apply st_over; cbn [r_pos r_curr]; [lia|right; rewrite app_length; reflexivity|reflexivity].
        -- rewrite read_at_end by lia. cbn [with_pos r_pos r_eof r_start r_first r_end r_curr].
           split; [exact ST|]. split; [exact FI|]. left. split; [reflexivity|]. split; [reflexivity|].
           apply st_over; cbn [r_pos r_curr]; auto.
Qed.

Lemma receive_all_plays gs tail st first speed : Forall loggable gs -> (length tail < 20)%nat ->
  forall calls r i, r_start r = Some st -> r_first r = first -> standing gs tail st first r i ->
  exists out, snd (receive_all (recorded gs ++ tail) speed r calls) = map Ok out /\
    plays speed (rest st first gs i) calls out.
Proof.
  intros F T. induction calls as [|[t now] calls IH]; intros r i ST FI SD; cbn [receive_all].
  - exists []. split; [reflexivity|constructor].
  - pose proof (receive_standing gs tail st first speed r i t now F T ST FI SD) as R.
    destruct (receive _ _ _ _ _) as [r' x]. destruct R as (ST' & FI' & [(-> & -> & SD')|(f & RE & LT & [(D & -> & SD')|(D & -> & SD')])]);
      destruct (IH r' _ ST' FI' SD') as (out & EO & PL); destruct (receive_all _ _ _ _) as [r2 o2]; cbn [snd] in *.
    + exists []. rewrite rest_over in *. split; [|constructor]. rewrite EO. inversion PL; reflexivity.
    + exists (f :: out). split; [rewrite EO; reflexivity|]. rewrite RE. constructor; assumption.
    + exists out. split; [exact EO|]. rewrite RE in *. constructor; assumption.
Qed.

Lemma playback f gs tail now start speed calls : Forall loggable (f :: gs) -> (length tail < 20)%nat ->
  exists r, open_log (recorded (f :: gs) ++ tail) now = Ok r /\
  exists out, snd (receive_all (recorded (f :: gs) ++ tail) speed (set_start_timestamp r (Some start)) calls) = map Ok out /\
    plays speed (shifted start (f :: gs)) calls out.
Proof.
  intros F T. eexists. split; [apply (open_records f gs tail now F T)|].
  destruct (receive_all_plays (f :: gs) tail start (c_ts f) speed F T calls
    (set_start_timestamp {| r_pos := 0; r_eof := false; r_start := Some now; r_first := c_ts f; r_end := None; r_curr := None |} (Some start))
    0 eq_refl eq_refl) as (out & E & P).
  - apply (st_next _ _ _ _ _ [] f gs); reflexivity.
  - exists out. split; [exact E|exact P].
Qed.

(** All at once: as many calls as frames. *)
Lemma plays_all fs : forall calls out, plays None fs calls out -> (length fs <= length calls)%nat -> out = fs.
Proof.
  induction fs as [|f fs IH]; intros calls out H L; inversion H; subst; try reflexivity.
  - cbn in L. lia.
  - f_equal. eapply IH; [eassumption|]. cbn [length] in L. lia.
  - match goal with D : ~ due None _ _ _ |- _ => exfalso; apply D; exact I end.
Qed.

(** Truncation. *)
Lemma complete_split fs n k : Forall loggable fs -> complete fs n k -> (n <= length (recorded fs))%nat ->
  firstn n (recorded fs) = recorded (firstn k fs) ++
    firstn (n - length (recorded (firstn k fs))) (match nth_error fs k with Some f => bytes_of f | None => [] end) /\
  (forall f, nth_error fs k = Some f -> (n - length (recorded (firstn k fs)) < length (bytes_of f))%nat).
Proof.
  intros F (KL & KC & KM) NL.
  set (L := length (recorded (firstn k fs))) in *.
  assert (E : recorded fs = recorded (firstn k fs) ++ recorded (skipn k fs)).
  { rewrite <- recorded_app, firstn_skipn. reflexivity. }
  destruct (nth_error fs k) as [f|] eqn:NE.
  - assert (SK : skipn k fs = f :: skipn (S k) fs).
    { clear -NE. revert fs NE. induction k as [|k IH]; intros [|g fs] NE; cbn in *; try discriminate; [congruence|]. apply IH. exact NE. }
    assert (KF : (k < length fs)%nat) by (apply nth_error_Some; congruence).
    assert (FS : firstn (S k) fs = firstn k fs ++ [f]).
    { clear -NE. revert fs NE. induction k as [|k IH]; intros [|g fs] NE; cbn in *; try discriminate; [congruence|].
      f_equal. apply IH. exact NE. }
    specialize (KM (S k)). rewrite FS, recorded_app, app_length in KM. fold L in KM.
    cbn [recorded flat_map] in KM. rewrite app_nil_r in KM. change (match record f with Ok b => b | Err _ => [] end) with (bytes_of f) in KM.
    assert (LT : (n - L < length (bytes_of f))%nat) by lia.
    split.
    + rewrite E, SK, recorded_cons, firstn_app. fold L. f_equal.
      * apply firstn_all2. exact KC.
      * rewrite firstn_app. replace (n - L - length (bytes_of f))%nat with 0%nat by lia. cbn [firstn]. apply app_nil_r.
    + intros g Hg. injection Hg as <-. exact LT.
  - apply nth_error_None in NE. assert (k = length fs) by lia. subst k. split; [|discriminate].
    rewrite firstn_nil, app_nil_r. rewrite firstn_all. unfold L in *. rewrite firstn_all in *. apply firstn_all2. lia.
Qed.

Lemma truncated fs n k now start speed calls : Forall loggable fs -> complete fs n k -> (n <= length (recorded fs))%nat ->
  (0 < k)%nat -> (n - length (recorded (firstn k fs)) < 20)%nat ->
  exists r, open_log (firstn n (recorded fs)) now = Ok r /\
  exists out, snd (receive_all (firstn n (recorded fs)) speed (set_start_timestamp r (Some start)) calls) = map Ok out /\
    plays speed (shifted start (firstn k fs)) calls out.
Proof.
  intros F C NL K T. destruct (complete_split fs n k F C NL) as (E & _). rewrite E.
  destruct C as (KL & _). destruct (firstn k fs) as [|f gs] eqn:FK.
  - exfalso. assert (length (firstn k fs) = k) by (apply firstn_length_le; exact KL). rewrite FK in H. cbn in H. lia.
  - apply playback.
    + rewrite <- FK. rewrite Forall_forall in *. intros x Hx. apply F. rewrite <- (firstn_skipn k fs). apply in_or_app. left. exact Hx.
    + rewrite firstn_length. lia.
Qed.

(** Within the data of a record the file cannot be opened at all. *)
Lemma scan_in_data gs : forall pre f n fuel r st, Forall loggable gs -> loggable f -> (20 <= n < length (bytes_of f))%nat ->
  r_pos r = length pre -> r_start r = Some st -> (length gs < fuel)%nat ->
  scan (pre ++ recorded gs ++ firstn n (bytes_of f)) fuel r = Err DriverError.
Proof.
  induction gs as [|g gs IH]; intros pre f n fuel r st F LF NL P ST FU; (destruct fuel as [|fuel]; [cbn in FU; lia|]); cbn [scan].
  - cbn [recorded flat_map app]. pose proof (read_in_data pre f n r LF NL P) as E.
    destruct (read_frame _ _) as [r' x]. cbn in E. subst x. reflexivity.
  - apply Forall_cons_iff in F as (F1 & F). rewrite recorded_cons, <- app_assoc.
    rewrite (read_at_record pre g _ r st F1 P ST). cbn [bind with_pos].
    rewrite app_assoc. apply (IH (pre ++ bytes_of g) f n fuel _ st F LF NL).
    + cbn [r_pos]. rewrite app_length. reflexivity.
    + exact ST.
    + cbn [length] in FU. lia.
Qed.

Lemma truncated_in_data fs n k now : Forall loggable fs -> complete fs n k -> (n <= length (recorded fs))%nat ->
  (20 <= n - length (recorded (firstn k fs)))%nat ->
  open_log (firstn n (recorded fs)) now = Err DriverError.
Proof.
  intros F C NL T. destruct (complete_split fs n k F C NL) as (E & LT). rewrite E.
  set (m := (n - length (recorded (firstn k fs)))%nat) in *.
  destruct (nth_error fs k) as [f|] eqn:NE.
  2:{ exfalso. apply nth_error_None in NE. destruct C as (KL & _). assert (k = length fs) by lia. subst k.
      subst m. rewrite firstn_all in T. lia. }
  specialize (LT f eq_refl).
  assert (LF : loggable f) by (rewrite Forall_forall in F; apply F; eapply nth_error_In; exact NE).
  assert (FG : Forall loggable (firstn k fs)).
  { rewrite Forall_forall in *. intros x Hx. apply F. rewrite <- (firstn_skipn k fs). apply in_or_app. left. exact Hx. }
  unfold open_log. destruct (firstn k fs) as [|g gs].
  - cbn [recorded flat_map app].
    pose proof (read_in_data [] f m {| r_pos := 0; r_eof := false; r_start := Some now; r_first := 0; r_end := None; r_curr := None |}
      LF (conj T LT) eq_refl) as R. cbn [app] in R.
    destruct (read_frame _ _) as [r' x]. cbn in R. subst x. reflexivity.
  - pose proof (recorded_length _ FG) as LR. apply Forall_cons_iff in FG as (F1 & FG). rewrite recorded_cons, <- app_assoc.
    pose proof (read_at_record [] g (recorded gs ++ firstn m (bytes_of f))
      {| r_pos := 0; r_eof := false; r_start := Some now; r_first := 0; r_end := None; r_curr := None |} now F1 eq_refl eq_refl) as R.
    cbn [app] in R. rewrite R. cbn [bind with_pos r_pos r_eof r_start].
    rewrite (scan_in_data gs (bytes_of g) f m _ _ now FG LF (conj T LT)); try reflexivity.
    rewrite recorded_cons in LR. rewrite app_assoc, (app_length _ (firstn _ _)). cbn [length] in LR. lia.
Qed.
