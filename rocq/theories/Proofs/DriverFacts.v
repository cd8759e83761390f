From Coq Require Import String.
From Verif.Base Require Import Prelude Bits.
From Verif.Model Require Import Types Parser Introspect Drivers.
From Verif.Spec Require Import ParserSpec GrammarSpec IntrospectSpec PathSpec DriverSpec.
From Verif.Proofs Require Import ParserText ParserFacts ParserNorm IntrospectNames PathFacts.
Open Scope list_scope.
Open Scope N_scope.

Lemma com_like_iff name : windows_com_port name = true <-> com_like name.
Proof.
  unfold windows_com_port, com_like.
  assert (filter (fun c => negb (c =? 46)) (filter (fun c => negb (c =? 92)) name) =
          filter (fun c => negb ((c =? 46) || (c =? 92))) name) as ->.
  { induction name as [|c name IH]; [reflexivity|]. cbn [filter].
    destruct (c =? 92); cbn [negb orb].
    - rewrite IH, orb_true_r. reflexivity.
    - cbn [filter]. rewrite IH, orb_false_r. reflexivity. }
  change (txt "com") with (map Introspect.lower (txt "com")) at 1.
  rewrite prefix_spec. split.
  - intros (q & r & E & H). eauto.
  - intros (c & r & H & E). eauto.
Qed.

Lemma head_not p c name : hd_error p <> Some c -> hd_error name = Some c ->
  p <> [] -> starts_with p name = false.
Proof.
  intros Hp Hn Hne. destruct p as [|a p]; [congruence|]. destruct name as [|b name]; [discriminate|].
  cbn in *. injection Hn as ->. replace (a =? c) with false; [reflexivity|].
  symmetry. apply N.eqb_neq. congruence.
Qed.

Lemma no_scheme name c : hd_error name = Some c ->
  c <> 109 -> c <> 115 -> c <> 102 -> c <> 80 ->
  starts_with (txt "mavcan:") name = false /\ starts_with (txt "slcan:") name = false /\
  starts_with (txt "mcast:") name = false /\ starts_with (txt "filein:") name = false /\
  starts_with (txt "fileout:") name = false /\ starts_with (txt "PCAN") name = false.
Proof.
  intros H H1 H2 H3 H4.
  repeat split; (eapply head_not; [|exact H|discriminate]; cbn; congruence).
Qed.

Lemma serial_head name : serial_port name -> exists c, hd_error name = Some c /\
  c <> 109 /\ c <> 115 /\ c <> 102 /\ c <> 80.
Proof.
  intros [(r & ->)|(pre & com & ds & -> & Hp & Hc & _)].
  - exists 47. repeat split; discriminate.
  - destruct Hp as [->| ->].
    + change (txt "com") with [99; 111; 109] in Hc. unfold alike in Hc. inversion Hc as [|x y xs ys Hx Hr]; subst.
      exists x. unfold like in Hx. split; [reflexivity|]. lia.
    + exists 92. repeat split; discriminate.
Qed.

Lemma serial_chosen name : serial_port name ->
  windows_com_port name || starts_with (txt "/dev/") name = true.
Proof.
  intros [(r & ->)|(pre & com & ds & -> & Hp & Hc & _)].
  - apply orb_true_iff. right. apply starts_with_app. eauto.
  - apply orb_true_iff. left. apply com_like_iff. unfold com_like.
    assert (filter (fun c => negb ((c =? 46) || (c =? 92))) com = com) as Ef.
    { change (txt "com") with [99; 111; 109] in Hc. unfold alike in Hc.
      repeat match goal with H : Forall2 _ _ (_ :: _) |- _ => inversion H; clear H; subst
             | H : Forall2 _ _ [] |- _ => inversion H; clear H; subst end.
      cbn [filter].
      repeat match goal with |- context [ (?x =? 46) || (?x =? 92) ] =>
        replace ((x =? 46) || (x =? 92)) with false by (unfold like in *; lia) end.
      reflexivity. }
    exists com, (filter (fun c => negb ((c =? 46) || (c =? 92))) ds). split; [exact Hc|].
    rewrite !filter_app, Ef. destruct Hp as [->| ->]; reflexivity.
Qed.

Lemma serial_driver w name kw : serial_port name ->
  make_driver w name kw =
  Ok (if have_mavcan w && speaks_mavlink w name
           (match dget text_eqb kw (txt "baudrate") with Some v => v | None => KwNum 115200 end)
      then DMavcan else DSlcan, name, kw).
Proof.
  intros H. destruct (serial_head name H) as (c & Hh & A & B & C & D).
  destruct (no_scheme name c Hh A B C D) as (E1 & E2 & E3 & E4 & E5 & E6).
  unfold make_driver. rewrite E1, E2, E3, E4, E5, E6, serial_chosen by exact H.
  unfold is_mavlink_port. destruct (have_mavcan w); cbn [negb andb]; [|reflexivity].
  match goal with |- context [if ?b then _ else _] => destruct b; reflexivity end.
Qed.

Lemma schemeless_tests name : schemeless name ->
  starts_with (txt "mavcan:") name = false /\ starts_with (txt "slcan:") name = false /\
  starts_with (txt "mcast:") name = false /\ starts_with (txt "filein:") name = false /\
  starts_with (txt "fileout:") name = false.
Proof.
  intros H.
  assert (forall s d, In (s, d) schemes -> starts_with s name = false) as G.
  { intros s d Hin. destruct (starts_with s name) eqn:E; [|reflexivity].
    apply starts_with_app in E as (r & E). exfalso. exact (H s d r Hin E). }
  repeat split; eapply G; unfold schemes; cbn [In]; eauto 10.
Qed.

Lemma interface_driver w name kw : schemeless name -> ~ in_dev name -> ~ com_like name ->
  exists kw', same_but (txt "bustype") kw kw' /\
    ((exists r, name = txt "PCAN" ++ r) -> dget text_eqb kw' (txt "bustype") = Some (KwText (txt "pcan"))) /\
    (~ (exists r, name = txt "PCAN" ++ r) -> kw' = kw) /\
    make_driver w name kw =
      if have_python_can w then Ok (DPythonCan, name, kw')
      else if on_linux w then Ok (DSocketCan, name, kw') else Err DriverError.
Proof.
  intros Hs Hd Hc. destruct (schemeless_tests name Hs) as (E1 & E2 & E3 & E4 & E5).
  unfold make_driver. rewrite E1, E2, E3, E4, E5.
  assert (windows_com_port name = false) as ->.
  { destruct (windows_com_port name) eqn:E; [|reflexivity]. apply com_like_iff in E. contradiction. }
  assert (starts_with (txt "/dev/") name = false) as ->.
  { destruct (starts_with (txt "/dev/") name) eqn:E; [|reflexivity].
    apply starts_with_app in E. contradiction. }
  cbn [orb]. destruct (starts_with (txt "PCAN") name) eqn:E.
  - apply starts_with_app in E. eexists. split; [|split; [|split; [|reflexivity]]].
    + intros x Hx. apply (dget_dset_other text_eqb text_eqb_eq). congruence.
    + intros _. apply (dget_dset_same text_eqb text_eqb_eq).
    + intros N. contradiction.
  - exists kw. split; [intros x _; reflexivity|]. split; [|split; reflexivity].
    intros H. apply starts_with_app in H. congruence.
Qed.

Lemma starts_with_self p r : starts_with p (p ++ r) = true.
Proof. apply starts_with_app. eauto. Qed.

Lemma scheme_driver w s d r kw : In (s, d) schemes -> (d = DMavcan -> have_mavcan w = true) ->
  exists kw', make_driver w (s ++ r) kw = Ok (d, r, kw') /\
    same_but (txt "readonly") kw kw' /\
    (s = txt "filein:" -> dget text_eqb kw' (txt "readonly") = Some (KwBool true)) /\
    (s = txt "fileout:" -> dget text_eqb kw' (txt "readonly") = Some (KwBool false)) /\
    (d <> DFile -> kw' = kw).
Proof.
  intros H Hm. unfold schemes in H. cbn [In] in H.
  assert (forall (kw : kwargs) b x, x <> txt "readonly" ->
    dget text_eqb (dset text_eqb kw (txt "readonly") b) x = dget text_eqb kw x) as Hoth
    by (intros; apply (dget_dset_other text_eqb text_eqb_eq); congruence).
  assert (forall (kw : kwargs) b, dget text_eqb (dset text_eqb kw (txt "readonly") b) (txt "readonly") = Some b)
    as Hsame by (intros; apply (dget_dset_same text_eqb text_eqb_eq)).
  repeat (destruct H as [H|H]; [injection H as <- <-|]); [..|contradiction];
    eexists; (split; [unfold make_driver; try rewrite Hm by reflexivity; reflexivity|]);
    unfold same_but; repeat split; auto; try discriminate; try (intros; congruence).
Qed.

Lemma mavcan_missing w r kw : have_mavcan w = false ->
  make_driver w (txt "mavcan:" ++ r) kw = Err DriverError.
Proof. intros H. unfold make_driver. rewrite H. reflexivity. Qed.

(** ** python-can *)
Lemma bus_of channel kw rate : dget text_eqb kw (txt "bitrate") = Some rate ->
  python_can_bus channel kw =
  Ok (channel, match dget text_eqb kw (txt "bustype") with
               | Some b => b | None => KwText (txt "socketcan") end, rate).
Proof.
  intros H. unfold python_can_bus. destruct (dget text_eqb kw (txt "bustype")) as [b|] eqn:E.
  - rewrite E, H. reflexivity.
  - rewrite (dget_dset_same text_eqb text_eqb_eq).
    rewrite (dget_dset_other text_eqb text_eqb_eq), H by discriminate. reflexivity.
Qed.

Lemma bus_needs_rate channel kw : dget text_eqb kw (txt "bitrate") = None ->
  python_can_bus channel kw = Err KeyError.
Proof.
  intros H. unfold python_can_bus. destruct (dget text_eqb kw (txt "bustype")) as [b|] eqn:E.
  - rewrite E, H. reflexivity.
  - rewrite (dget_dset_same text_eqb text_eqb_eq).
    rewrite (dget_dset_other text_eqb text_eqb_eq), H by discriminate. reflexivity.
Qed.

(** ** Multicast groups *)
Lemma more_plain ds acc : Forall (fun c => 48 <= c <= 57) ds ->
  more 10 acc ds (fold_left (fun a c => 10 * a + (c - 48)) ds acc).
Proof.
  intros H. revert acc. induction H as [|c ds Hc Hds IH]; intros acc; cbn [fold_left].
  - constructor.
  - apply more_digit with (d := c - 48); [unfold digit_of; lia|]. apply IH.
Qed.

Lemma py_int_plain ds : Forall (fun c => 48 <= c <= 57) ds -> ds <> [] ->
  py_int 10 ds = Ok (Z.of_N (digits_value ds)).
Proof.
  intros H Hne. apply py_int10. exists [], ds, []. rewrite app_nil_r.
  split; [reflexivity|]. split; [constructor|]. exists (digits_value ds). left.
  split; [|reflexivity]. destruct H as [|c ds Hc Hds]; [congruence|].
  exists c, (c - 48), ds. split; [reflexivity|]. split; [unfold digit_of; lia|].
  unfold digits_value. cbn [fold_left]. rewrite N.mul_0_r, N.add_0_l. apply more_plain. exact Hds.
Qed.

Lemma split_plain ds : Forall (fun c => 48 <= c <= 57) ds -> split_by (N.eqb 58) ds = [ds].
Proof.
  induction 1 as [|c ds Hc Hds IH]; [reflexivity|]. cbn [split_by].
  replace (58 =? c) with false by lia. rewrite IH. reflexivity.
Qed.

Lemma group_of ds : Forall (fun c => 48 <= c <= 57) ds ->
  exists b, mcast_ip ds = Ok (txt "239.65.82." ++ b) /\
    IntrospectSpec.decimal_text b (Z.of_N (digits_value ds)).
Proof.
  intros H. unfold mcast_ip. rewrite split_plain by exact H.
  destruct ds as [|c ds].
  - exists (decimal_z 0). split; [reflexivity|apply decimal_text_z].
  - cbn [nonempty]. rewrite py_int_plain by (exact H || discriminate). cbn [bind].
    eexists. split; [reflexivity|]. apply decimal_text_z.
Qed.

Lemma decimal_text_inj b z z' : (0 <= z)%Z -> (0 <= z')%Z ->
  IntrospectSpec.decimal_text b z -> IntrospectSpec.decimal_text b z' -> z = z'.
Proof.
  intros Hz Hz' (d & _ & _ & E & V) (d' & _ & _ & E' & V').
  replace (z <? 0)%Z with false in E by lia. replace (z' <? 0)%Z with false in E' by lia.
  subst. lia.
Qed.

Lemma groups_apart ds ds' : Forall (fun c => 48 <= c <= 57) ds -> Forall (fun c => 48 <= c <= 57) ds' ->
  mcast_ip ds = mcast_ip ds' <-> digits_value ds = digits_value ds'.
Proof.
  intros H H'. destruct (group_of ds H) as (b & E & D). destruct (group_of ds' H') as (b' & E' & D').
  split.
  - intros Eq. rewrite E, E' in Eq. injection Eq as Eq. subst b'.
    assert (Z.of_N (digits_value ds) = Z.of_N (digits_value ds')) by (eapply decimal_text_inj; try eassumption; lia).
    lia.
  - intros Eq. unfold mcast_ip. rewrite !split_plain by assumption.
    assert (forall l : text, Forall (fun c => 48 <= c <= 57) l ->
      (if nonempty l then py_int 10 l else Ok 0%Z) = Ok (Z.of_N (digits_value l))) as G.
    { intros l Hl. destruct l; [reflexivity|]. cbn [nonempty]. apply py_int_plain; [exact Hl|discriminate]. }
    rewrite !G, Eq by assumption. reflexivity.
Qed.
