(** Proofs about how far the playback of a log is. *)
From Verif.Base Require Import Prelude.
From Verif.Model Require Import CanFrame FileLog LogProgress.
From Verif.Spec Require Import LogSpec LogProgressSpec.
From Verif.Proofs Require Import LogFacts.
Local Open Scope Z_scope.

(** ** Any file *)
Section Any.
  Variable content : list N.
  Definition inside (r : reader) : Prop := (r_pos r <= length content)%nat.

  Lemma read_moves r : inside r -> inside (fst (read_frame content r)) /\
    (r_pos r <= r_pos (fst (read_frame content r)))%nat /\
    (r_eof r = true -> r_eof (fst (read_frame content r)) = true).
  Proof.
    unfold inside, read_frame. intros L. destruct (length content <=? r_pos r)%nat; [cbn; auto|].
    assert (W : (r_pos r + length (firstn 20 (skipn (r_pos r) content)) <= length content)%nat).
    { rewrite firstn_length, skipn_length. lia. }
    set (h := firstn 20 (skipn (r_pos r) content)) in *.
    destruct (length h <? 20)%nat; [cbn; auto with arith|].
    destruct (negb _); [cbn; auto with arith|].
    assert (V : forall n, (r_pos r + length h + length (firstn n (skipn (r_pos r + length h) content)) <= length content)%nat).
    { intros n. rewrite firstn_length, skipn_length. lia. }
    specialize (V (N.to_nat (field 12 2 h))).
    set (d := firstn (N.to_nat (field 12 2 h)) (skipn (r_pos r + length h) content)) in *. clearbody d h.
    assert (G : (r_pos r + length h + length d <= length content)%nat /\ (r_pos r <= r_pos r + length h + length d)%nat /\ (r_eof r = true -> r_eof r = true)).
    { repeat split; [exact V|lia|auto]. }
    destruct (length d <? _)%nat; [exact G|]. destruct (negb _); [exact G|].
    cbn [with_pos r_start]. destruct (r_start r); exact G.
  Qed.
  Lemma receive_moves speed r t now : inside r -> let r' := fst (receive content speed r t now) in
    inside r' /\ (r_pos r <= r_pos r')%nat /\ (r_eof r = true -> r_eof r' = true).
  Proof.
    intros L. unfold receive. destruct (r_eof r) eqn:E; [cbn; auto|].
    set (r1 := match r_start r with None => _ | Some _ => r end).
    assert (P : r_pos r1 = r_pos r) by (unfold r1; destruct (r_start r); reflexivity).
    assert (L1 : inside r1) by (unfold inside in *; lia).
    destruct (r_curr r1) as [f|].
    - cbv zeta. destruct (_ && _); cbn [fst]; unfold inside; cbn [r_pos]; rewrite P; repeat split; auto; discriminate.
    - pose proof (read_moves r1 L1) as M. destruct (read_frame content r1) as (r2, x). cbn [fst] in M. rewrite P in M. destruct M as (M1 & M2 & _).
      destruct x as [[(f, ts)|]|e]; cbv zeta; [destruct (_ && _)| |]; cbn [fst]; unfold inside in *; cbn [r_pos]; repeat split; auto; discriminate.
  Qed.
  Lemma progress_of r r' : content <> [] -> inside r -> inside r' -> (r_pos r <= r_pos r')%nat -> (r_eof r = true -> r_eof r' = true) ->
    at_most (stream_progress content r) (stream_progress content r').
  Proof.
    intros NE I I' P E. assert (0 < Z.of_nat (length content)) by (destruct content; [congruence|cbn [length]; lia]).
    unfold at_most, stream_progress, inside in *. destruct (r_eof r); [rewrite E by reflexivity; cbn; lia|].
    destruct (r_eof r'); cbn [fst snd]; nia.
  Qed.
  Lemma progress_is r : content <> [] -> inside r -> percentage (stream_progress content r).
  Proof.
    intros NE I. assert (0 < Z.of_nat (length content)) by (destruct content; [congruence|cbn [length]; lia]).
    unfold percentage, at_most, stream_progress, inside in *. destruct (r_eof r); cbn [fst snd]; lia.
  Qed.
  Lemma open_is now r : open_log content now = Ok r -> content <> [] /\ r_pos r = 0%nat /\ r_eof r = false.
  Proof.
    unfold open_log. intros H. split.
    - intros ->. vm_compute in H. discriminate.
    - destruct (read_frame _ _) as (r0, x). apply bind_ok in H as (o & _ & H). destruct o as [(f, ts)|]; [|discriminate].
      apply bind_ok in H as (r1 & _ & H). injection H as <-. split; reflexivity.
  Qed.
  Lemma run_moves speed : forall calls r, inside r -> let r' := fst (receive_all content speed r calls) in
    inside r' /\ (r_pos r <= r_pos r')%nat /\ (r_eof r = true -> r_eof r' = true).
  Proof.
    induction calls as [|(t, now) calls IH]; intros r L; cbn [receive_all]; [cbn; auto|].
    pose proof (receive_moves speed r t now L) as (L1 & P1 & E1). destruct (receive content speed r t now) as (r1, x). cbn [fst] in *.
    specialize (IH r1 L1). destruct (receive_all content speed r1 calls) as (r2, out). cbn [fst] in *.
    destruct IH as (L2 & P2 & E2). repeat split; [exact L2|lia|auto].
  Qed.
  Lemma run_app speed : forall a b r, fst (receive_all content speed r (a ++ b)) = fst (receive_all content speed (fst (receive_all content speed r a)) b) /\
    snd (receive_all content speed r (a ++ b)) = snd (receive_all content speed r a) ++ snd (receive_all content speed (fst (receive_all content speed r a)) b).
  Proof.
    induction a as [|(t, now) a IH]; intros b r; [split; reflexivity|].
    cbn [receive_all app]. destruct (receive content speed r t now) as (r1, x). destruct (IH b r1) as (E1 & E2).
    destruct (receive_all content speed r1 (a ++ b)) as (r2, o2). destruct (receive_all content speed r1 a) as (r3, o3).
    cbn [fst snd] in *. subst r2 o2. split; [reflexivity|]. destruct x as [[f|]|e]; reflexivity.
  Qed.
End Any.

(** ** A log *)
Lemma run_standing gs tail st first speed : Forall loggable gs -> (length tail < 20)%nat ->
  forall calls r i, r_start r = Some st -> r_first r = first -> standing gs tail st first r i ->
  let '(r', out) := receive_all (recorded gs ++ tail) speed r calls in
  exists j, (i <= j <= length gs)%nat /\ r_start r' = Some st /\ r_first r' = first /\ standing gs tail st first r' j /\
    out ++ map Ok (rest st first gs j) = map Ok (rest st first gs i).
Proof.
  intros F T. assert (B : forall r i, standing gs tail st first r i -> (i <= length gs)%nat).
  { intros r i SD. destruct SD as [pre f post EG ? ? ?|pre f post EG ? ? ?|]; [rewrite EG, app_length; lia|rewrite EG, app_length; lia|lia]. }
  induction calls as [|[t now] calls IH]; intros r i ST FI SD; cbn [receive_all].
  - exists i. pose proof (B _ _ SD). auto 7.
  - pose proof (receive_standing gs tail st first speed r i t now F T ST FI SD) as R.
    destruct (receive _ _ _ _ _) as [r' x]. destruct R as (ST' & FI' & [(E & -> & SD')|(f & RE & LT & [(D & -> & SD')|(D & -> & SD')])]);
      specialize (IH r' _ ST' FI' SD'); destruct (receive_all _ _ _ _) as [r2 o2]; destruct IH as (j & L & A & A2 & A3 & A4);
      exists j; (split; [lia|]); (split; [exact A|]); (split; [exact A2|]); (split; [exact A3|]).
    + exact A4.
    + cbn [app]. rewrite A4, RE. reflexivity.
    + exact A4.
Qed.

(** The log, opened and run. *)
Lemma opened f gs tail now start speed calls : Forall loggable (f :: gs) -> (length tail < 20)%nat ->
  forall r, open_log (recorded (f :: gs) ++ tail) now = Ok r ->
  let '(r', out) := receive_all (recorded (f :: gs) ++ tail) speed (set_start_timestamp r (Some start)) calls in
  exists j, (j <= length (f :: gs))%nat /\ r_start r' = Some start /\ r_first r' = c_ts f /\ standing (f :: gs) tail start (c_ts f) r' j /\
    out = map Ok (firstn j (shifted start (f :: gs))) /\ length out = j.
Proof.
  intros F T r O. rewrite (open_records f gs tail now F T) in O. injection O as <-.
  set (r0 := set_start_timestamp {| r_pos := 0; r_eof := false; r_start := Some now; r_first := c_ts f; r_end := None; r_curr := None |} (Some start)).
  assert (SD0 : standing (f :: gs) tail start (c_ts f) r0 0) by (apply (st_next _ _ _ _ _ [] f gs); reflexivity).
  pose proof (run_standing (f :: gs) tail start (c_ts f) speed F T calls r0 0 eq_refl eq_refl SD0) as R.
  destruct (receive_all _ _ _ _) as (r', out). destruct R as (j & J & A1 & A2 & A3 & A4).
  exists j. split; [lia|]. split; [exact A1|]. split; [exact A2|]. split; [exact A3|].
  set (g := fun x => at_time (start + (c_ts x - c_ts f)) x) in *.
  assert (E : out = map Ok (firstn j (map g (f :: gs)))).
  { change (rest start (c_ts f) (f :: gs) 0) with (map g (f :: gs)) in A4. change (rest start (c_ts f) (f :: gs) j) with (map g (skipn j (f :: gs))) in A4.
    rewrite <- (firstn_skipn j (f :: gs)) in A4 at 2. rewrite !map_app in A4. apply app_inv_tail in A4. rewrite A4.
    rewrite <- firstn_map. reflexivity. }
  split; [exact E|]. rewrite E, map_length, firstn_length, map_length. lia.
Qed.

Lemma end_all f gs tail now start speed calls r : Forall loggable (f :: gs) -> (length tail < 20)%nat ->
  open_log (recorded (f :: gs) ++ tail) now = Ok r ->
  let '(r', out) := receive_all (recorded (f :: gs) ++ tail) speed (set_start_timestamp r (Some start)) calls in
  end_of_stream r' = true -> out = map Ok (shifted start (f :: gs)).
Proof.
  intros F T O. pose proof (opened f gs tail now start speed calls F T r O) as R.
  destruct (receive_all _ _ _ _) as (r', out). destruct R as (j & J & _ & _ & SD & E & L). intros EO. unfold end_of_stream in EO.
  destruct SD as [pre h post EG P E0 C|pre h post EG P E0 C|P1 P2 C]; [congruence|congruence|].
  rewrite E. f_equal. apply firstn_all2. cbn [shifted]. rewrite map_length. lia.
Qed.

Lemma over_once gs tail st first speed r t now : (length tail < 20)%nat -> r_start r = Some st -> standing gs tail st first r (length gs) ->
  r_curr r = None ->
  (r_eof r = true \/ (r_pos r = length (recorded gs) \/ length (recorded gs ++ tail) <= r_pos r)%nat) ->
  let r' := fst (receive (recorded gs ++ tail) speed r t now) in
  r_curr r' = None /\ (r_eof r' = true \/ length (recorded gs ++ tail) <= r_pos r' /\ r_pos r = length (recorded gs))%nat.
Proof.
  intros T ST _ C [E|P]; unfold receive.
  - rewrite E. cbn [fst]. auto.
  - destruct (r_eof r) eqn:E; [cbn [fst]; auto|]. rewrite ST, C.
    destruct (Nat.leb_spec (length (recorded gs ++ tail)) (r_pos r)) as [G|G].
    + rewrite read_at_end by exact G. cbn. auto.
    + destruct P as [P|P]; [|lia]. rewrite app_length in G. rewrite read_in_header by lia.
      cbn. split; [reflexivity|]. right. rewrite app_length. lia.
Qed.
Lemma ends f gs tail now start speed calls t1 n1 t2 n2 r : Forall loggable (f :: gs) -> (length tail < 20)%nat ->
  open_log (recorded (f :: gs) ++ tail) now = Ok r ->
  length (snd (receive_all (recorded (f :: gs) ++ tail) speed (set_start_timestamp r (Some start)) calls)) = length (f :: gs) ->
  end_of_stream (fst (receive_all (recorded (f :: gs) ++ tail) speed (set_start_timestamp r (Some start)) (calls ++ [(t1, n1); (t2, n2)]))) = true.
Proof.
  intros F T O L. rewrite (proj1 (run_app _ _ _ _ _)).
  pose proof (opened f gs tail now start speed calls F T r O) as R.
  destruct (receive_all _ speed _ calls) as (r', out). cbn [fst snd] in *. destruct R as (j & J & ST & FI & SD & E & L').
  assert (EJ : j = length (f :: gs)) by congruence. rewrite EJ in SD. clear L' EJ E J.
  assert (W : standing (f :: gs) tail start (c_ts f) r' (length (f :: gs)) -> r_curr r' = None /\
     (r_pos r' = length (recorded (f :: gs)) \/ length (recorded (f :: gs) ++ tail) <= r_pos r')%nat).
  { clear. remember (length (f :: gs)) as n eqn:EN. intros SD. destruct SD as [pre h post EG P E0 C|pre h post EG P E0 C|P1 P2 C].
    - exfalso. rewrite EG, app_length in EN. cbn in EN. lia.
    - exfalso. rewrite EG, app_length in EN. cbn in EN. lia.
    - auto. }
  destruct (W SD) as (C & P).
  pose proof (over_once (f :: gs) tail start (c_ts f) speed r' t1 n1 T ST SD C (or_intror P)) as X1.
  pose proof (receive_standing (f :: gs) tail start (c_ts f) speed r' _ t1 n1 F T ST FI SD) as Y1.
  cbn [receive_all]. destruct (receive (recorded (f :: gs) ++ tail) speed r' t1 n1) as (r1, x1). cbn [fst] in X1.
  destruct Y1 as (ST1 & FI1 & [(_ & _ & SD1)|(h & _ & LT & _)]); [|cbn in LT; lia].
  destruct X1 as (C1 & X1).
  assert (Q1 : r_eof r1 = true \/ (length (recorded (f :: gs) ++ tail) <= r_pos r1)%nat) by (destruct X1 as [|(A & _)]; auto).
  destruct (receive (recorded (f :: gs) ++ tail) speed r1 t2 n2) as (r2, x2) eqn:E2. cbn [receive_all fst]. unfold end_of_stream.
  change r2 with (fst (r2, x2)). rewrite <- E2. clear - Q1 C1 ST1. unfold receive.
  destruct (r_eof r1) eqn:E; [exact E|]. destruct Q1 as [Q|Q]; [discriminate|]. rewrite ST1, C1, read_at_end by exact Q. reflexivity.
Qed.

(** What the percentage counts. *)
Lemma counts f gs tail now start speed calls r : Forall loggable (f :: gs) -> (length tail < 20)%nat ->
  open_log (recorded (f :: gs) ++ tail) now = Ok r ->
  let content := recorded (f :: gs) ++ tail in
  let '(r', out) := receive_all content speed (set_start_timestamp r (Some start)) calls in
  (length out < length (f :: gs))%nat ->
  exists k, (k = length out \/ k = S (length out)) /\
    stream_progress content r' = (100 * Z.of_nat (length (recorded (firstn k (f :: gs)))), Z.of_nat (length content)).
Proof.
  intros F T O content. pose proof (opened f gs tail now start speed calls F T r O) as R. subst content.
  destruct (receive_all _ _ _ _) as (r', out). destruct R as (j & J & _ & _ & SD & _ & L). intros LT. rewrite L in *. clear L O T.
  unfold stream_progress. destruct SD as [pre h post EG P E0 C|pre h post EG P E0 C|P1 P2 C].
  - exists (length pre). split; [auto|]. rewrite E0, P. assert (Q : firstn (length pre) (f :: gs) = pre) by (rewrite EG, <- (Nat.add_0_r (length pre)), firstn_app_2; cbn [firstn]; apply app_nil_r). rewrite Q. reflexivity.
  - exists (S (length pre)). split; [auto|]. rewrite E0, P.
    assert (Q : firstn (S (length pre)) (f :: gs) = pre ++ [h]).
    { rewrite EG. replace (pre ++ h :: post) with ((pre ++ [h]) ++ post) by (rewrite <- app_assoc; reflexivity).
      replace (S (length pre)) with (length (pre ++ [h]) + 0)%nat by (rewrite app_length; cbn; lia).
      rewrite firstn_app_2. cbn [firstn]. apply app_nil_r. }
    rewrite Q. reflexivity.
  - lia.
Qed.
