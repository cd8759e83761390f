From Verif.Base Require Import Prelude Bits.
From Verif.Model Require Import Types Prim Codec MsgId Frames TransferManager Node Serial MavTunnel.
From Verif.Spec Require Import CodecSpec PrimSpec MsgIdSpec FrameSpec ReassemblySpec SendingSpec NodeSpec CallSpec StreamSpec SerialSpec TunnelSpec.
From Verif.Proofs Require Import PrimFacts SerialFacts NodeTop NodeNet NodeCallTop StreamFacts TypedStream.
Local Open Scope Z_scope.
Local Opaque set_int get_int.

Lemma byte_read b : is_byte b -> exists x, set_int KUint 8 Saturated (Z.of_N b) = Ok x /\ length x = 8%nat /\
  get_int KUint 8 x = Some (Z.of_N b).
Proof.
  intros H. destruct (set_get KUint 8 Saturated (Z.of_N b) ltac:(cbn; lia)) as (x & E & L & G).
  exists x. split; [exact E|]. split; [exact L|]. rewrite G. f_equal.
  apply shown_id; [cbn; lia|]. unfold representable, is_byte in *. cbn. lia.
Qed.

Lemma field_read k n x : int_type k n -> representable k n x -> exists b, set_int k n Saturated x = Ok b /\ length b = n /\
  get_int k n b = Some x.
Proof.
  intros H R. destruct (set_get k n Saturated x H) as (b & E & L & G).
  exists b. split; [exact E|]. split; [exact L|]. rewrite G. f_equal. apply shown_id; assumption.
Qed.

Lemma items_read bs : Forall is_byte bs -> exists items, byte_items bs = Ok items /\ length items = length bs /\
  Forall (valid (TPrim KUint 8 Saturated)) items /\
  forall vs, map (content (TPrim KUint 8 Saturated)) vs = map (content (TPrim KUint 8 Saturated)) items -> get_bytes vs = Some bs.
Proof.
  induction bs as [|b bs IH]; intros F.
  - exists []. cbn. split; [reflexivity|]. split; [reflexivity|]. split; [constructor|].
    intros [|v vs] E; [reflexivity|discriminate].
  - apply Forall_cons_iff in F as (Hb & F). destruct (IH F) as (items & E & L & V & R).
    destruct (byte_read b Hb) as (x & Ex & Lx & Gx).
    exists (VPrim x :: items). cbn [byte_items]. rewrite Ex. cbn [bind]. rewrite E. cbn [bind].
    split; [reflexivity|]. split; [cbn; lia|]. split; [constructor; [constructor; exact Lx|exact V]|].
    intros [|v vs] Ev; [discriminate|]. cbn [map] in Ev. injection Ev as E1 E2.
    cbn [get_bytes]. rewrite (R vs E2). destruct v; cbn in E1; try discriminate. injection E1 as ->.
    cbn [get_byte]. rewrite Gx. cbn [option_map]. rewrite N2Z.id. reflexivity.
Qed.

Lemma targetted_sound w id crc m : sound w -> fits w m ->
  wf_type (targetted_type w) /\ exists v, targetted w m = Ok v /\ valid (targetted_type w) v /\
  forall a r, h_source (rx_header r) = Some a -> content (targetted_type w) (rx_value r) = content (targetted_type w) v ->
    rx_datatype r = targetted_datatype id crc w -> message_in w r = Some (from_source a m).
Proof.
  intros (W1 & W2 & W3 & W4 & W5) (F1 & F2 & F3 & F4 & F5 & F6 & F7).
  split. { cbn in *. intuition (lia || discriminate). }
  destruct (field_read _ _ _ W1 F1) as (p & Ep & Lp & Gp).
  destruct (field_read _ _ _ W2 F2) as (t & Et & Lt & Gt).
  destruct (field_read _ _ _ W3 F3) as (s & Es & Ls & Gs).
  destruct (field_read _ _ _ W4 F4) as (o & Eo & Lo & Go).
  destruct (field_read _ _ _ W5 F5) as (b & Eb & Lb & Gb).
  destruct (items_read _ F6) as (items & Ei & Li & Vi & Ri).
  exists (VComp [VComp [VPrim p] None; VPrim t; VPrim s; VPrim o; VPrim b; VArr items] None).
  split.
  { unfold targetted. rewrite Ep. cbn [bind]. rewrite Et. cbn [bind]. rewrite Es. cbn [bind]. rewrite Eo. cbn [bind].
    rewrite Eb. cbn [bind]. replace (120 <? length (m_buffer m))%nat with false by lia. rewrite Ei. reflexivity. }
  split.
  { unfold targetted_type. constructor.
    repeat (constructor; [first [constructor; repeat constructor; assumption | constructor; assumption]|]).
    constructor; [|constructor]. apply valid_dynamic; [exact Vi|lia]. }
  intros a r Hs Hc _. unfold message_in. rewrite Hs.
  destruct (rx_value r) as [| | |vs act]; try discriminate Hc.
  unfold targetted_type in Hc. cbn [content map zip_content] in Hc.
  destruct vs as [|v1 [|v2 [|v3 [|v4 [|v5 [|v6 vs]]]]]]; cbn [zip_content] in Hc; try discriminate Hc.
  injection Hc as C1 C2 C3 C4 C5 C6.
  destruct v1 as [| | |us a1]; try discriminate C1. destruct us as [|u us]; try discriminate C1.
  cbn [zip_content] in C1. injection C1 as C1. 
  destruct u; try discriminate C1. injection C1 as ->.
  destruct v2; try discriminate C2. injection C2 as ->.
  destruct v3; try discriminate C3. injection C3 as ->.
  destruct v4; try discriminate C4. injection C4 as ->.
  destruct v5; try discriminate C5. injection C5 as ->.
  destruct v6; try discriminate C6. injection C6 as C6.
  rewrite Gp, Gt, Gs, Go, Gb. rewrite (Ri _ C6). rewrite !N2Z.id. reflexivity.
Qed.

Lemma calls_app hd l l' : calls hd (l ++ l') = calls hd l ++ calls hd l'.
Proof. unfold calls. rewrite filter_app, map_app. reflexivity. Qed.

Lemma calls_to_all hd hs r : registered hd hs -> accepts hd r = true -> calls hd (to_all hs r) = [r].
Proof.
  unfold registered, calls, to_all. intros Hr Ha.
  assert (E : filter (fun p : handler * rx => Nat.eqb (hd_id (fst p)) (hd_id hd)) (map (fun h => (h, r)) (filter (fun h => accepts h r) hs))
    = map (fun h => (h, r)) (filter (fun h => accepts h r) (filter (fun h => Nat.eqb (hd_id h) (hd_id hd)) hs))).
  { clear. induction hs as [|h hs IH]; [reflexivity|]. cbn [filter].
    destruct (accepts h r) eqn:A; destruct (Nat.eqb (hd_id h) (hd_id hd)) eqn:B; cbn [map filter fst];
      rewrite ?A, ?B; cbn [map]; rewrite ?IH; reflexivity. }
  rewrite E, Hr. cbn [filter]. rewrite Ha. reflexivity.
Qed.

Lemma those_broadcasts w dt tries bs : Forall2 (broadcasts w dt) tries bs -> forall oks, length oks = length bs ->
  Forall2 (broadcasts w dt) (those tries oks) (those bs oks).
Proof.
  induction 1 as [|m b ms bs Hb F IH]; intros [|ok oks] L; try discriminate; [constructor|].
  cbn in L. specialize (IH oks ltac:(lia)). unfold those in *. cbn [combine filter snd]. destruct ok; cbn [map fst]; [constructor; assumption|exact IH].
Qed.

Lemma wire A insA insA1 a d out B ins0 ins1 w crc ms hd :
  n_id (ran A insA) = Some a -> (1 <= a < 128)%N ->
  leaves_type d (st_beh A) -> dt_id (st_status_dt A) <> d ->
  bus (n_log (ran A (insA ++ insA1))) = bus (n_log (ran A insA)) ++ out ->
  st_catch B = true -> steady (st_beh B) ins1 -> (length (handlers_of (ran B ins0)) < st_fuel B)%nat -> by_id (st_types B) ->
  Forall2 same_frame (filter (of_type a d) out) (filter (of_type a d) (heard ins1)) ->
  (d < 2 ^ 16)%N -> (crc < 2 ^ 16)%N -> sound w -> st_types B d false = Some (targetted_datatype d crc w) ->
  registered hd (handlers_of (ran B ins0)) -> hd_type hd = Some (d, false) ->
  Forall (fits w) ms -> puts_out A insA insA1 w d crc ms ->
  exists rs,
    calls hd (filter (said_of a d) (handled (n_log (ran B (ins0 ++ ins1))))) =
    calls hd (filter (said_of a d) (handled (n_log (ran B ins0)))) ++ rs /\
    map (message_in w) rs = map (fun m => Some (from_source a m)) ms.
Proof.
  intros Hid Ha Hb Hs Eo Hc St Hf Hk Hsame Hd16 Hc16 Hw Ht Hreg Hty Fm (tries & oks & F0 & Eoks & Et & Ft).
  destruct (typed_refused A insA insA1 a d out oks B ins0 ins1) as (L & _ & rs & Hr & E); try assumption.
  { assert (Fm' : Forall (fits w) tries).
    { eapply Forall_impl; [|exact Ft]. intros m [Hm|Hm]; [exact (proj1 (Forall_forall _ _) Fm m Hm)|exact Hm]. }
    clear Fm. rename Fm' into Fm. rename F0 into F2. clear - F2 Fm Hd16 Hc16 Hw Ht. induction F2 as [|m b ms bs (B1 & B2 & B3) F2 IH]; [constructor|].
    apply Forall_cons_iff in Fm as (Fm & Fms). constructor; [|apply IH; exact Fms].
    destruct (targetted_sound w d crc m Hw Fm) as (Wt & v & Ev & Vv & _). rewrite B2 in Ev. injection Ev as <-.
    unfold fit. rewrite B1. cbn [dt_id dt_crc dt_fields targetted_datatype].
    split; [assumption|]. split; [assumption|]. split; [assumption|]. split; [exact Wt|]. split; assumption. }
  pose proof (those_broadcasts _ _ _ _ F0 oks L) as F2. rewrite Et in F2. clear F0 Eoks Et Ft L tries.
  revert F2 Hr. generalize (those (casts d insA1) oks) as bs0. intros bs0 F2 Hr.
  exists rs. split.
  - rewrite E, calls_app. f_equal.
    clear - F2 Hr Hreg Hty. revert ms F2. induction Hr as [|b r bs rs (C1 & C2 & C3 & C4) Hr IH]; intros ms F2; [reflexivity|].
    inversion F2 as [|m b' ms' bs' (B1 & _) F2']; subst. cbn [flat_map]. rewrite calls_app, (IH ms') by assumption.
    rewrite calls_to_all; [reflexivity|exact Hreg|]. unfold accepts. rewrite Hty. unfold type_of. rewrite C3, B1.
    unfold typeid_eqb. cbn [fst snd dt_id dt_service targetted_datatype]. rewrite N.eqb_refl. reflexivity.
  - clear - F2 Hr Fm Hw. revert ms Fm F2. induction Hr as [|b r bs rs (C1 & C2 & C3 & C4) Hr IH]; intros ms Fm F2.
    + inversion F2. reflexivity.
    + inversion F2 as [|m b' ms' bs' (B1 & B2 & _) F2']; subst. apply Forall_cons_iff in Fm as (Fm & Fms).
      cbn [map]. rewrite (IH ms') by assumption. f_equal.
      destruct (targetted_sound w d crc m Hw Fm) as (_ & v & Ev & _ & R). rewrite B2 in Ev. injection Ev as <-.
      rewrite B1 in C3, C4. apply (R a r C2 C4 C3).
Qed.

(** The tunnel. *)
Lemma publish_payload own data : payload (publish own data) = data.
Proof.
  unfold payload, publish. rewrite flat_map_concat_map, map_map. cbn [m_buffer].
  rewrite map_id. apply concat_chunks. lia.
Qed.

Lemma gave_app l l' : gave (l ++ l') = gave l ++ gave l'. Proof. apply flat_map_app. Qed.
Lemma put_out_app l l' : put_out (l ++ l') = put_out l ++ put_out l'. Proof. apply flat_map_app. Qed.
Lemma gave_broadcasts ms : gave (map Broadcast ms) = [].
Proof. induction ms; [reflexivity|assumption]. Qed.
Lemma put_out_broadcasts ms : put_out (map Broadcast ms) = ms.
Proof. induction ms as [|m ms IH]; [reflexivity|]. cbn. f_equal. exact IH. Qed.
Lemma payload_app l l' : payload (l ++ l') = payload l ++ payload l'. Proof. apply flat_map_app. Qed.
Lemma bytes_for_app own l l' : bytes_for own (l ++ l') = bytes_for own l ++ bytes_for own l'. Proof. apply flat_map_app. Qed.

Lemma waiting own pre : Forall (fun e => e <> Connects) pre -> tunnel_run own pre = new_tunnel.
Proof.
  unfold tunnel_run. generalize (eq_refl : new_tunnel = new_tunnel).
  induction pre as [|e pre IH]; intros _ F; [reflexivity|]. apply Forall_cons_iff in F as (He & F).
  cbn [fold_left]. replace (tunnel_step own new_tunnel e) with new_tunnel; [apply IH; trivial|].
  destruct e as [|data fails| |m sent]; try reflexivity; [congruence|]. cbn. destruct (_ && _); reflexivity.
Qed.

Lemma serving own mid : Forall smooth mid -> forall s, tn_place s = Serving ->
  let s' := fold_left (tunnel_step own) mid s in
  tn_place s' = Serving /\ gave (tn_log s') = gave (tn_log s) ++ bytes_for own (came mid) /\
  payload (put_out (tn_log s')) = payload (put_out (tn_log s)) ++ typed mid /\ clients (tn_log s') = clients (tn_log s).
Proof.
  intros F. induction F as [|e mid He F IH]; intros s Hs; cbn zeta.
  - cbn. rewrite !app_nil_r. repeat split; assumption.
  - cbn [fold_left].
    assert (G : tn_place (tunnel_step own s e) = Serving /\
      gave (tn_log (tunnel_step own s e)) = gave (tn_log s) ++ bytes_for own (came [e]) /\
      payload (put_out (tn_log (tunnel_step own s e))) = payload (put_out (tn_log s)) ++ typed [e] /\
      clients (tn_log (tunnel_step own s e)) = clients (tn_log s)).
    { destruct e as [|data fails| |m sent]; cbn in He.
      - cbn [tunnel_step]. rewrite Hs. cbn. rewrite !app_nil_r. repeat split; assumption.
      - destruct fails; [contradiction|]. cbn [tunnel_step]. rewrite Hs. cbn [came typed flat_map bytes_for]. rewrite !app_nil_r.
        destruct data as [|b data]; [rewrite ?app_nil_r; repeat split; try assumption; reflexivity|].
        cbn [tn_place tn_log].
        rewrite gave_app, gave_broadcasts, put_out_app, put_out_broadcasts, payload_app, publish_payload, app_nil_r.
        split; [reflexivity|]. split; [reflexivity|]. split; [reflexivity|].
        unfold clients. rewrite filter_app, app_length.
        replace (filter _ (map Broadcast _)) with (@nil sight); [cbn; lia|].
        induction (publish own (b :: data)); [reflexivity|assumption].
      - contradiction.
      - destruct sent; [|contradiction]. cbn [tunnel_step came typed flat_map bytes_for app]. rewrite ?app_nil_r.
        destruct (m_target m =? own)%N; cbn [andb].
        + destruct (m_buffer m) as [|b bs] eqn:Eb; cbn [negb].
          * rewrite ?app_nil_r. repeat split; assumption.
          * rewrite Hs. cbn [tn_place tn_log]. rewrite gave_app, put_out_app. cbn. rewrite ?app_nil_r.
            unfold clients. rewrite filter_app, app_length. cbn. rewrite Nat.add_0_r. repeat split.
        + rewrite ?app_nil_r. repeat split; assumption. }
    destruct G as (G1 & G2 & G3 & G4). destruct (IH _ G1) as (I1 & I2 & I3 & I4).
    split; [exact I1|]. rewrite I2, I3, I4, G2, G3, G4, <- !app_assoc, <- bytes_for_app.
    repeat split; unfold came, typed; rewrite <- flat_map_app; reflexivity.
Qed.

Lemma session own pre mid :
  Forall (fun e => e <> Connects) pre -> Forall smooth mid ->
  let s := tunnel_run own (pre ++ Connects :: mid) in
  gave (tn_log s) = bytes_for own (came mid) /\ payload (put_out (tn_log s)) = typed mid /\ clients (tn_log s) = 1%nat.
Proof.
  intros Hp Hm. unfold tunnel_run. rewrite fold_left_app. fold (tunnel_run own pre). rewrite (waiting own pre Hp).
  cbn [fold_left]. destruct (serving own mid Hm (tunnel_step own new_tunnel Connects) eq_refl) as (_ & G & P & C).
  cbn zeta. rewrite G, P, C. repeat split.
Qed.

Lemma over own s more : tn_place s = Ended -> clients (tn_log (fold_left (tunnel_step own) more s)) = clients (tn_log s) /\
  gave (tn_log (fold_left (tunnel_step own) more s)) = gave (tn_log s).
Proof.
  revert s. induction more as [|e more IH]; intros s Hs; [split; reflexivity|]. cbn [fold_left].
  assert (G : tn_place (tunnel_step own s e) = Ended /\ clients (tn_log (tunnel_step own s e)) = clients (tn_log s) /\
              gave (tn_log (tunnel_step own s e)) = gave (tn_log s)).
  { destruct e as [|data fails| |m sent]; cbn [tunnel_step]; rewrite ?Hs; try (repeat split; assumption).
    destruct (_ && _); [|repeat split; assumption]. cbn [tn_place tn_log]. rewrite gave_app. unfold clients.
    rewrite filter_app, app_length. cbn. rewrite app_nil_r, Nat.add_0_r. repeat split. }
  destruct G as (G1 & G2 & G3). destruct (IH _ G1) as (I1 & I2). rewrite I1, I2, G2, G3. split; reflexivity.
Qed.

Lemma over_one own es : forall s, (tn_place s = Accepting -> clients (tn_log s) = 0%nat) -> (clients (tn_log s) <= 1)%nat ->
  (clients (tn_log (fold_left (tunnel_step own) es s)) <= 1)%nat.
Proof.
  assert (CM : forall ms, clients (map Broadcast ms) = 0%nat).
  { intros ms. unfold clients. replace (filter _ (map Broadcast ms)) with (@nil sight); [reflexivity|]. induction ms; [reflexivity|assumption]. }
  assert (CA : forall l l', clients (l ++ l') = (clients l + clients l')%nat).
  { intros. unfold clients. rewrite filter_app, app_length. reflexivity. }
  induction es as [|e es IH]; intros s H0 H1; [exact H1|]. cbn [fold_left].
  apply IH; destruct e as [|data fails| |m sent]; cbn [tunnel_step].
  - destruct (tn_place s) eqn:E; cbn; try discriminate; intros E'; congruence.
  - destruct (tn_place s) eqn:E, data; try (intros E'; congruence); try exact H0; try (rewrite E; discriminate).
    + intros _. apply H0. reflexivity.
    + intros _. apply H0. reflexivity.
    + destruct fails as [k|]; [destruct (k <? _)%nat|]; discriminate.
  - destruct (tn_place s) eqn:E; cbn; try discriminate; intros E'; try congruence. apply H0. reflexivity.
  - destruct (_ && _); [|exact H0]. destruct (tn_place s) eqn:E; cbn; try discriminate. intros _. apply H0. reflexivity.
  - destruct (tn_place s) eqn:E; try exact H1. cbn [tn_log]. rewrite CA, (H0 eq_refl). cbn. lia.
  - destruct (tn_place s) eqn:E, data; try exact H1.
    destruct fails as [k|]; [destruct (k <? _)%nat|]; cbn [tn_log]; rewrite ?CA, ?CM; cbn; lia.
  - destruct (tn_place s); try exact H1. cbn [tn_log]. rewrite CA. cbn. lia.
  - destruct (_ && _); [|exact H1]. destruct (tn_place s); cbn [tn_log]; try exact H1; rewrite CA; [destruct sent|]; cbn; lia.
Qed.

Lemma one_client own es : (clients (tn_log (tunnel_run own es)) <= 1)%nat.
Proof. apply over_one; cbn; lia. Qed.

Lemma chunks_many {A} (l : list A) : (120 * length (chunks 120 l) < length l + 120)%nat.
Proof.
  induction l as [|l Hl IH] using (chunks_ind 120 ltac:(lia)); [cbn; lia|].
  rewrite chunks_cons by (try lia; assumption). cbn [length]. rewrite skipn_length in IH.
  destruct (Nat.le_gt_cases 120 (length l)); [lia|].
  rewrite skipn_all2 by lia. destruct l; [congruence|]. cbn [length chunks chunks_fuel]. lia.
Qed.
Lemma concat_short {A} (ls : list (list A)) : Forall (fun l => (length l <= 120)%nat) ls -> (length (concat ls) <= 120 * length ls)%nat.
Proof. induction 1 as [|l ls H F IH]; [cbn; lia|]. cbn [concat length]. rewrite app_length. lia. Qed.

Lemma publish_best own data :
  Forall (fun m => (1 <= length (m_buffer m) <= 120)%nat) (publish own data) /\ payload (publish own data) = data /\
  forall ms, Forall (fun m => (length (m_buffer m) <= 120)%nat) ms -> payload ms = data ->
    (length (publish own data) <= length ms)%nat.
Proof.
  split; [|split; [apply publish_payload|]].
  - unfold publish. apply Forall_map. cbn [m_buffer].
    induction data as [|l Hl IH] using (chunks_ind 120 ltac:(lia)); [constructor|].
    rewrite chunks_cons by (try lia; assumption). constructor; [|exact IH].
    rewrite firstn_length. destruct l; [congruence|]. cbn [length]. lia.
  - intros ms F E. unfold publish. rewrite map_length. pose proof (chunks_many data) as H.
    pose proof (concat_short (map m_buffer ms)) as H'. rewrite Forall_map, <- flat_map_concat_map, map_length in H'.
    specialize (H' F). unfold payload in E. rewrite E in H'. lia.
Qed.

Lemma Forall_chunks (P : N -> Prop) (l : list N) : Forall P l -> Forall (Forall P) (chunks 120 l).
Proof.
  induction l as [|l Hl IH] using (chunks_ind 120 ltac:(lia)); intros F; [constructor|].
  rewrite chunks_cons by (try lia; assumption). rewrite <- (firstn_skipn 120 l), Forall_app in F. destruct F as (F1 & F2).
  constructor; [exact F1|apply IH; exact F2].
Qed.

Lemma publish_fits w own data : tunnel_fits w -> Forall is_byte data -> Forall (fits w) (publish own data).
Proof.
  intros (W1 & W2 & W3 & W4 & W5) F. unfold publish. apply Forall_map.
  pose proof (Forall_chunks _ _ F) as Fc. rewrite Forall_forall in *. intros c Hc.
  repeat split; try (apply W1 || apply W2 || apply W3 || apply W4 || apply W5); cbn [m_buffer].
  - apply Fc. exact Hc.
  - eapply chunks_length_le; [|exact Hc]. lia.
Qed.

Lemma put_out_fits w own es : tunnel_fits w -> Forall is_byte (typed es) -> forall s,
  Forall (fits w) (put_out (tn_log s)) -> Forall (fits w) (put_out (tn_log (fold_left (tunnel_step own) es s))).
Proof.
  intros W. induction es as [|e es IH]; intros F s Hs; [exact Hs|]. cbn [fold_left].
  unfold typed in F. cbn [flat_map] in F. apply Forall_app in F as (F0 & F). apply IH; [exact F|].
  destruct e as [|data fails| |m sent]; cbn [tunnel_step].
  - destruct (tn_place s); try exact Hs. cbn [tn_log]. rewrite put_out_app. cbn. rewrite app_nil_r. exact Hs.
  - destruct (tn_place s); try exact Hs. destruct data as [|b data]; [exact Hs|].
    pose proof (publish_fits w own _ W F0) as P.
    assert (G : Forall (fits w) (put_out (tn_log s ++ map Broadcast (publish own (b :: data))))).
    { rewrite put_out_app, put_out_broadcasts. apply Forall_app. split; assumption. }
    destruct fails as [k|]; [|exact G]. destruct (k <? _)%nat; [|exact G].
    cbn [tn_log]. rewrite !put_out_app, put_out_broadcasts. cbn [put_out flat_map]. rewrite app_nil_r.
    apply Forall_app. split; [exact Hs|]. rewrite <- (firstn_skipn k (publish own (b :: data))), Forall_app in P. apply P.
  - destruct (tn_place s); try exact Hs. cbn [tn_log]. rewrite put_out_app. cbn. rewrite app_nil_r. exact Hs.
  - destruct (_ && _); [|exact Hs]. destruct (tn_place s); try exact Hs; cbn [tn_log]; rewrite put_out_app;
      [destruct sent|]; cbn; rewrite app_nil_r; exact Hs.
Qed.

Lemma put_out_target own es : forall s,
  Forall (fun m => m_target m = 10%N) (put_out (tn_log s)) -> Forall (fun m => m_target m = 10%N) (put_out (tn_log (fold_left (tunnel_step own) es s))).
Proof.
  assert (P : forall data, Forall (fun m => m_target m = 10%N) (publish own data)).
  { intros data. unfold publish. apply Forall_map. apply Forall_forall. reflexivity. }
  induction es as [|e es IH]; intros s Hs; [exact Hs|]. cbn [fold_left]. apply IH.
  destruct e as [|data fails| |m sent]; cbn [tunnel_step].
  - destruct (tn_place s); try exact Hs. cbn [tn_log]. rewrite put_out_app. cbn. rewrite app_nil_r. exact Hs.
  - destruct (tn_place s); try exact Hs. destruct data as [|b data]; [exact Hs|]. specialize (P (b :: data)).
    assert (G : Forall (fun m => m_target m = 10%N) (put_out (tn_log s ++ map Broadcast (publish own (b :: data))))).
    { rewrite put_out_app, put_out_broadcasts. apply Forall_app. split; assumption. }
    destruct fails as [k|]; [|exact G]. destruct (k <? _)%nat; [|exact G].
    cbn [tn_log]. rewrite !put_out_app, put_out_broadcasts. cbn [put_out flat_map]. rewrite app_nil_r.
    apply Forall_app. split; [exact Hs|]. rewrite <- (firstn_skipn k (publish own (b :: data))), Forall_app in P. apply P.
  - destruct (tn_place s); try exact Hs. cbn [tn_log]. rewrite put_out_app. cbn. rewrite app_nil_r. exact Hs.
  - destruct (_ && _); [|exact Hs]. destruct (tn_place s); try exact Hs; cbn [tn_log]; rewrite put_out_app;
      [destruct sent|]; cbn; rewrite app_nil_r; exact Hs.
Qed.

(** The link. *)
Lemma link A insA insA1 a d B ins0 ins1 w crc hd ms :
  linked A insA insA1 a d B ins0 ins1 -> listens B ins0 w d crc hd ->
  Forall (fits w) ms -> puts_out A insA insA1 w d crc ms ->
  heard_from w hd a d (n_log (ran B ins0)) (n_log (ran B (ins0 ++ ins1))) (map (from_source a) ms).
Proof.
  intros (L2 & L3 & L4 & L5 & L6 & L7 & L8 & L9 & out & L10 & L11) (M1 & M2 & M3 & M4 & M5 & M6) F F2.
  unfold heard_from. rewrite map_map. eapply wire with (out := out); eassumption.
Qed.

Lemma heard_once w hd a d before after ms ms' :
  heard_from w hd a d before after ms -> heard_from w hd a d before after ms' -> ms = ms'.
Proof.
  intros (rs & E & R) (rs' & E' & R'). rewrite E in E'. apply app_inv_head in E'. subst rs'.
  rewrite R in R'. clear - R'. revert ms' R'. induction ms as [|m ms IH]; intros [|m' ms'] H; try discriminate; [reflexivity|].
  cbn in H. injection H as -> H. f_equal. apply IH. exact H.
Qed.

(** A port that sends. *)
Lemma speed_fits w baud ops : representable KUint (w_baud w) baud ->
  Forall (fun o => match o with OSetBaud b => representable KUint (w_baud w) b | _ => True end) ops ->
  representable KUint (w_baud w) (speed baud ops).
Proof.
  intros H F. revert baud H. induction F as [|o ops Ho F IH]; intros baud H; [exact H|].
  unfold speed. cbn [fold_left]. apply IH. destruct o; assumption.
Qed.

Lemma port_sends w i target dev lock baud ops :
  port_fits w target dev lock baud ops -> writes_return (Some i) target dev lock (fresh baud) ops -> Forall is_byte (written ops) ->
  let ms := sent_in (p_log (run_port (Some i) target dev lock baud ops)) in
  Forall (fits w) ms /\ Forall (fun m => m_target m = target) ms /\ payload ms = written ops.
Proof.
  intros (W1 & W2 & W3 & W4 & W5 & W6) HR HB. cbn zeta.
  pose proof (port_sent (Some i) target dev lock i eq_refl ops (fresh baud) HR) as P.
  cbn [fresh p_log sent_in flat_map payload app] in P. fold (run_port (Some i) target dev lock baud ops) in P.
  assert (FB : Forall (fun m => Forall is_byte (m_buffer m)) (sent_in (p_log (run_port (Some i) target dev lock baud ops)))).
  { rewrite <- P in HB. revert HB. generalize (sent_in (p_log (run_port (Some i) target dev lock baud ops))).
    intros l. induction l as [|m l IH]; intros F; [constructor|]. cbn in F. apply Forall_app in F as (F1 & F2).
    constructor; [exact F1|apply IH; exact F2]. }
  assert (FD : Forall (fun m => exists k, (k <= length ops)%nat /\ for_device (Some i) target dev lock (speed baud (firstn k ops)) m)
                 (sent_in (p_log (run_port (Some i) target dev lock baud ops)))).
  { clear. induction ops as [|op ops IH] using rev_ind; [constructor|].
    destruct (port_told (Some i) target dev lock i eq_refl baud ops op) as (l & E & F). rewrite E.
    unfold sent_in. rewrite flat_map_app. apply Forall_app. split.
    - eapply Forall_impl; [|exact IH]. intros m (k & Hk & Hm). exists k. rewrite app_length, firstn_app.
      replace (k - length ops)%nat with 0%nat by lia. cbn [firstn]. rewrite app_nil_r. split; [lia|exact Hm].
    - eapply Forall_impl; [|exact F]. intros m Hm. exists (length ops). rewrite app_length, firstn_app, firstn_all, Nat.sub_diag.
      cbn [firstn]. rewrite app_nil_r. split; [lia|exact Hm]. }
  split; [|split; [|exact P]].
  - rewrite Forall_forall in *. intros m Hm. specialize (FB m Hm). destruct (FD m Hm) as (k & _ & D1 & D2 & D3 & D4 & D5 & D6 & D7).
    unfold fits. rewrite D2, D3, D4, D5, D6. repeat (split; [assumption|]). split; [|split; assumption].
    apply speed_fits; [exact W5|]. apply Forall_forall. intros o Ho. apply W6. 
    rewrite <- (firstn_skipn k ops). apply in_or_app. left. exact Ho.
  - eapply Forall_impl; [|exact FD]. intros m (k & _ & _ & D & _). exact D.
Qed.

(** A port that reads. *)
Lemma since_all log : ~ In EFlush log -> since_flush log = log.
Proof.
  unfold since_flush. intros H.
  assert (G : forall acc, fold_left (fun acc e => match e with EFlush => [] | _ => acc ++ [e] end) log acc = acc ++ log).
  { induction log as [|e log IH]; intros acc; [symmetry; apply app_nil_r|]. cbn [fold_left].
    rewrite IH by (intros I; apply H; right; exact I).
    destruct e; try (rewrite <- app_assoc; reflexivity). exfalso. apply H. left. reflexivity. }
  apply (G []).
Qed.

Lemma received_coming own target log : received_in (Some own) target log = bytes_for own (coming_from target (recv_in log)).
Proof.
  induction log as [|e log IH]; [reflexivity|]. unfold received_in, recv_in. cbn [flat_map].
  fold (received_in (Some own) target log) (recv_in log). rewrite IH. destruct e; try reflexivity.
  unfold coming_from. cbn [app filter]. destruct (m_source m =? target)%N; reflexivity.
Qed.

Lemma bytes_for_all own a ms : Forall (fun m => m_target m = own) ms -> bytes_for own (map (from_source a) ms) = payload ms.
Proof.
  induction 1 as [|m ms Hm F IH]; [reflexivity|]. unfold bytes_for, payload. cbn [map flat_map].
  fold (bytes_for own (map (from_source a) ms)) (payload ms). rewrite IH. cbn [from_source m_target m_buffer].
  rewrite Hm, N.eqb_refl. reflexivity.
Qed.

Lemma port_reads own target dev lock baud ops :
  let s := run_port (Some own) target dev lock baud ops in ~ In EFlush (p_log s) ->
  read_in (p_log s) ++ p_buf s = bytes_for own (coming_from target (recv_in (p_log s))).
Proof.
  intros s H. rewrite <- received_coming. pose proof (port_since (Some own) target dev lock own eq_refl baud ops) as P.
  cbn zeta in P. fold s in P. rewrite (since_all _ H) in P. exact P.
Qed.

(** From port to port. *)
Lemma serial A insA insA1 a d B ins0 ins1 w crc hd b dev lock baud ops dev' lock' baud' ops' :
  linked A insA insA1 a d B ins0 ins1 -> listens B ins0 w d crc hd ->
  port_fits w b dev lock baud ops -> writes_return (Some a) b dev lock (fresh baud) ops -> Forall is_byte (written ops) ->
  puts_out A insA insA1 w d crc (sent_in (p_log (run_port (Some a) b dev lock baud ops))) ->
  let s := run_port (Some b) a dev' lock' baud' ops' in
  heard_from w hd a d (n_log (ran B ins0)) (n_log (ran B (ins0 ++ ins1))) (coming_from a (recv_in (p_log s))) ->
  ~ In EFlush (p_log s) ->
  read_in (p_log s) ++ p_buf s = written ops.
Proof.
  intros HL HM HP HW HB HF s HH HE. destruct (port_sends w a b dev lock baud ops HP HW HB) as (P1 & P2 & P3).
  pose proof (link _ _ _ _ _ _ _ _ _ _ _ _ HL HM P1 HF) as K.
  unfold s. rewrite port_reads by exact HE. fold s. rewrite (heard_once _ _ _ _ _ _ _ _ HH K).
  rewrite bytes_for_all by exact P2. exact P3.
Qed.

(** From the client of a tunnel to a port, and back. *)
Lemma tunnel_to_port A insA insA1 a d B ins0 ins1 w crc hd pre mid dev' lock' baud' ops' :
  linked A insA insA1 a d B ins0 ins1 -> listens B ins0 w d crc hd -> tunnel_fits w ->
  Forall (fun e => e <> Connects) pre -> Forall smooth mid -> Forall is_byte (typed mid) ->
  puts_out A insA insA1 w d crc (put_out (tn_log (tunnel_run a (pre ++ Connects :: mid)))) ->
  let s := run_port (Some 10%N) a dev' lock' baud' ops' in
  heard_from w hd a d (n_log (ran B ins0)) (n_log (ran B (ins0 ++ ins1))) (coming_from a (recv_in (p_log s))) ->
  ~ In EFlush (p_log s) ->
  read_in (p_log s) ++ p_buf s = typed mid.
Proof.
  intros HL HM HT Hp Hm HB HF s HH HE.
  destruct (session a pre mid Hp Hm) as (_ & P & _).
  assert (F1 : Forall (fits w) (put_out (tn_log (tunnel_run a (pre ++ Connects :: mid))))).
  { unfold tunnel_run. rewrite fold_left_app. fold (tunnel_run a pre). rewrite (waiting a pre Hp).
    apply put_out_fits; [exact HT|exact HB|constructor]. }
  pose proof (link _ _ _ _ _ _ _ _ _ _ _ _ HL HM F1 HF) as K.
  unfold s. rewrite port_reads by exact HE. fold s. rewrite (heard_once _ _ _ _ _ _ _ _ HH K).
  rewrite bytes_for_all; [exact P|]. unfold tunnel_run. apply put_out_target. constructor.
Qed.

Lemma bytes_for_only own a ms : Forall (fun m => m_target m = own -> m_source m = a) ms ->
  bytes_for own ms = bytes_for own (coming_from a ms).
Proof.
  induction 1 as [|m ms Hm F IH]; [reflexivity|]. unfold bytes_for, coming_from. cbn [flat_map filter].
  fold (bytes_for own ms) (coming_from a ms). rewrite IH.
  destruct (m_source m =? a)%N eqn:E; [reflexivity|].
  destruct (m_target m =? own)%N eqn:E'; [|reflexivity]. exfalso. rewrite Hm in E by lia. lia.
Qed.

Lemma port_to_tunnel A insA insA1 a d B ins0 ins1 w crc hd own dev lock baud ops pre mid :
  linked A insA insA1 a d B ins0 ins1 -> listens B ins0 w d crc hd ->
  port_fits w own dev lock baud ops -> writes_return (Some a) own dev lock (fresh baud) ops -> Forall is_byte (written ops) ->
  puts_out A insA insA1 w d crc (sent_in (p_log (run_port (Some a) own dev lock baud ops))) ->
  Forall (fun e => e <> Connects) pre -> Forall smooth mid ->
  heard_from w hd a d (n_log (ran B ins0)) (n_log (ran B (ins0 ++ ins1))) (coming_from a (came mid)) ->
  Forall (fun m => m_target m = own -> m_source m = a) (came mid) ->
  gave (tn_log (tunnel_run own (pre ++ Connects :: mid))) = written ops.
Proof.
  intros HL HM HP HW HB HF Hp Hm HH HO. destruct (port_sends w a own dev lock baud ops HP HW HB) as (P1 & P2 & P3).
  pose proof (link _ _ _ _ _ _ _ _ _ _ _ _ HL HM P1 HF) as K.
  destruct (session own pre mid Hp Hm) as (-> & _ & _).
  rewrite (bytes_for_only own a _ HO), (heard_once _ _ _ _ _ _ _ _ HH K), bytes_for_all by exact P2. exact P3.
Qed.
