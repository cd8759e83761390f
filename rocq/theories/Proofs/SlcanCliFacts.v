(** The receiver with command line requests, line by line. *)
From Verif.Base Require Import Prelude.
From Verif.Model Require Import TsEst Slcan Utf8 SlcanCli.
From Verif.Spec Require Import SlcanSpec SlcanCliSpec.
From Verif.Proofs Require Import SlcanFacts.
Local Open Scope N_scope.

Lemma list_eqb_spec a : forall b, list_eqb a b = true <-> a = b.
Proof.
  induction a as [|x a IH]; intros [|y b]; cbn; try (split; congruence). rewrite andb_true_iff, N.eqb_eq, IH.
  split; [intros [-> ->]; reflexivity|intros [=]; auto].
Qed.

(** ** Splitting into lines *)

(** The lines of a mix, and what is left over. *)
Fixpoint scan (cur l : list N) : list item * list N :=
  match l with
  | [] => ([], cur)
  | b :: r =>
      if b =? CR then
        match r with
        | [] => ([], cur ++ [CR])
        | c :: r' => if c =? LF then let (t, d) := scan [] r' in (TextItem cur :: t, d)
                     else let (t, d) := scan [] r in (FrameItem cur :: t, d)
        end
      else scan (cur ++ [b]) r
  end.

Lemma scan_none l : forall cur, ~ In CR l -> scan cur l = ([], cur ++ l).
Proof.
  induction l as [|b l IH]; intros cur H; cbn; [rewrite app_nil_r; reflexivity|].
  replace (b =? CR) with false by (symmetry; apply N.eqb_neq; intros ->; apply H; left; reflexivity).
  rewrite IH by (intros I; apply H; right; exact I). rewrite <- app_assoc. reflexivity.
Qed.
Lemma scan_cr l r : forall cur, ~ In CR l -> scan cur (l ++ CR :: r) =
  match r with
  | [] => ([], cur ++ l ++ [CR])
  | c :: r' => if c =? LF then (TextItem (cur ++ l) :: fst (scan [] r'), snd (scan [] r'))
               else (FrameItem (cur ++ l) :: fst (scan [] r), snd (scan [] r))
  end.
Proof.
  induction l as [|b l IH]; intros cur H.
  - cbn [app scan]. replace (CR =? CR) with true by reflexivity. rewrite !app_nil_r. destruct r as [|c r]; [reflexivity|].
    destruct (c =? LF); [destruct (scan [] r); reflexivity|destruct (scan [] (c :: r)); reflexivity].
  - cbn [app scan].
    replace (b =? CR) with false by (symmetry; apply N.eqb_neq; intros ->; apply H; left; reflexivity).
    rewrite IH by (intros I; apply H; right; exact I). destruct r as [|c r]; [rewrite <- app_assoc; reflexivity|].
    rewrite <- app_assoc. reflexivity.
Qed.

(** Every string has no CR or a first one. *)
Lemma first_cr (l : list N) : ~ In CR l \/ exists a b, l = a ++ CR :: b /\ ~ In CR a.
Proof.
  induction l as [|x l IH]; [left; intros []|]. destruct (N.eq_dec x CR) as [->|N].
  - right. exists [], l. split; [reflexivity|intros []].
  - destruct IH as [H|(a & b & -> & H)].
    + left. intros [E|E]; [congruence|contradiction].
    + right. exists (x :: a), b. split; [reflexivity|]. intros [E|E]; [congruence|contradiction].
Qed.

Lemma crlf_nonempty l : split_crlf l <> [].
Proof.
  destruct l as [|b [|c l]]; [discriminate..|]. cbn [split_crlf]. destruct ((b =? CR) && (c =? LF)); [discriminate|].
  match goal with |- match ?x with _ => _ end <> _ => destruct x end; discriminate.
Qed.
Lemma crlf_plain l : forall r, ~ In CR l -> split_crlf (l ++ r) =
  match split_crlf r with p :: ps => (l ++ p) :: ps | [] => [] end.
Proof.
  induction l as [|b l IH]; intros r H; cbn [app].
  - pose proof (crlf_nonempty r). destruct (split_crlf r); [contradiction|reflexivity].
  - assert (B : b =? CR = false) by (apply N.eqb_neq; intros ->; apply H; left; reflexivity).
    assert (H' : ~ In CR l) by (intros I; apply H; right; exact I). specialize (IH r H').
    pose proof (crlf_nonempty r) as NE. cbn [split_crlf].
    destruct (l ++ r) as [|c x] eqn:E.
    + apply app_eq_nil in E as [-> ->]. reflexivity.
    + rewrite B. cbn [andb]. rewrite IH. destruct (split_crlf r); [contradiction|reflexivity].
Qed.
Lemma crlf_self l : ~ In CR l -> split_crlf l = [l].
Proof. intros H. pose proof (crlf_plain l [] H) as E. cbn [split_crlf] in E. rewrite !app_nil_r in E. exact E. Qed.
Lemma crlf_break l r : ~ In CR l -> split_crlf (l ++ CR :: LF :: r) = l :: split_crlf r.
Proof. intros H. rewrite crlf_plain by exact H. change (split_crlf (CR :: LF :: r)) with ([] :: split_crlf r). cbv iota. rewrite app_nil_r. reflexivity. Qed.
Lemma crlf_cr l b r : ~ In CR l -> b <> LF -> split_crlf (l ++ CR :: b :: r) =
  match split_crlf (b :: r) with p :: ps => (l ++ CR :: p) :: ps | [] => [] end.
Proof.
  intros H B. rewrite crlf_plain by exact H. pose proof (crlf_nonempty (b :: r)) as NE.
  change (split_crlf (CR :: b :: r)) with
    (if (CR =? CR) && (b =? LF) then [] :: split_crlf r
     else match split_crlf (b :: r) with p :: ps => (CR :: p) :: ps | [] => [[CR]] end).
  replace (b =? LF) with false by (symmetry; apply N.eqb_neq; exact B). rewrite andb_false_r.
  destruct (split_crlf (b :: r)); [contradiction|reflexivity].
Qed.
Lemma crlf_one n : forall l p, (length l <= n)%nat -> split_crlf l = [p] -> p = l.
Proof.
  induction n as [|n IH]; intros l p L E.
  - destruct l; [|cbn in L; lia]. cbn in E. congruence.
  - destruct l as [|b [|c l]]; [cbn in E; congruence..|]. cbn [split_crlf] in E. destruct ((b =? CR) && (c =? LF)).
    + assert (X : split_crlf l = []) by congruence. destruct (crlf_nonempty _ X).
    + change (match split_crlf (c :: l) with p :: ps => (b :: p) :: ps | [] => [[b]] end = [p]) in E.
      pose proof (crlf_nonempty (c :: l)) as NE. destruct (split_crlf (c :: l)) as [|q [|q' qs]] eqn:F; [contradiction| |discriminate].
      apply IH in F; [|cbn in L |- *; lia]. congruence.
Qed.

Lemma cr_plain l : ~ In CR l -> split_cr l = [l].
Proof. intros H. pose proof (split_lines [] l H) as E. rewrite app_nil_r in E. exact E. Qed.
Lemma cr_break l r : ~ In CR l -> split_cr (l ++ CR :: r) = l :: split_cr r.
Proof.
  intros H. rewrite (split_lines (CR :: r) l H). cbn [complete_lines remainder].
  change (CR =? 13) with true. cbn [app]. f_equal. symmetry. apply (split_lines r [] (fun x => x)).
Qed.

(** What the program makes of it. *)
Definition piece_items (p : list N) : list item :=
  map FrameItem (removelast (split_cr p)) ++ [TextItem (last (split_cr p) [])].
Definition mixed (d : list N) : list item * list N :=
  let pieces := split_crlf d in
  let tail := last pieces [] in
  let lines := split_cr (removelast tail) in
  (flat_map piece_items (removelast pieces) ++ map FrameItem (removelast lines),
   last lines [] ++ skipn (length tail - 1) tail).

Lemma removelast_cons {A} (x : A) l : l <> [] -> removelast (x :: l) = x :: removelast l.
Proof. destruct l; [contradiction|reflexivity]. Qed.
Lemma last_cons {A} (x d : A) l : l <> [] -> last (x :: l) d = last l d.
Proof. destruct l; [contradiction|reflexivity]. Qed.
Lemma last_byte {A} (d : list A) : d <> [] -> removelast d ++ skipn (length d - 1) d = d.
Proof.
  intros H. destruct (exists_last H) as (a & x & ->). rewrite removelast_last, app_length. cbn [length].
  replace (length a + 1 - 1)%nat with (length a) by lia. rewrite skipn_app, skipn_all, Nat.sub_diag. reflexivity.
Qed.
Lemma piece_cr l p : ~ In CR l -> piece_items (l ++ CR :: p) = FrameItem l :: piece_items p.
Proof.
  intros H. unfold piece_items. rewrite cr_break by exact H. rewrite removelast_cons, last_cons by apply split_nonempty. reflexivity.
Qed.

Lemma mixed_scan n : forall d, (length d <= n)%nat -> mixed d = scan [] d.
Proof.
  induction n as [|n IH]; intros d L.
  - destruct d; [reflexivity|cbn in L; lia].
  - destruct (first_cr d) as [H|(l & r & -> & H)].
    + rewrite scan_none by exact H. unfold mixed. rewrite crlf_self by exact H. cbn [removelast last flat_map app].
      destruct d as [|b d]; [reflexivity|]. remember (b :: d) as x eqn:Ex.
      rewrite cr_plain. 2:{ intros I. apply H. rewrite <- (last_byte x) by (subst x; discriminate). apply in_app_iff. left. exact I. }
      cbn [removelast last map]. rewrite last_byte by (subst x; discriminate). reflexivity.
    + rewrite scan_cr by exact H. rewrite app_length in L. cbn [length] in L.
      destruct r as [|b r].
      * unfold mixed.
        rewrite crlf_plain by exact H. change (split_crlf [CR]) with [[CR]]. cbn [removelast last flat_map app].
        rewrite removelast_last. rewrite cr_plain by exact H. cbn [removelast last map app].
        rewrite app_length. cbn [length]. replace (length l + 1 - 1)%nat with (length l) by lia.
        rewrite skipn_app, skipn_all, Nat.sub_diag. reflexivity.
      * destruct (b =? LF) eqn:E.
        -- apply N.eqb_eq in E as ->. cbn [length] in L. specialize (IH r ltac:(lia)). rewrite <- IH.
           unfold mixed. rewrite crlf_break by exact H. pose proof (crlf_nonempty r) as NE.
           rewrite removelast_cons, last_cons by exact NE. cbn [flat_map fst snd]. rewrite <- app_assoc.
           unfold piece_items at 1. rewrite cr_plain by exact H. reflexivity.
        -- apply N.eqb_neq in E. specialize (IH (b :: r) ltac:(cbn [length] in L |- *; lia)). rewrite <- IH.
           unfold mixed. rewrite crlf_cr by assumption. pose proof (crlf_nonempty (b :: r)) as NE.
           destruct (split_crlf (b :: r)) as [|p [|p' ps]] eqn:F; [contradiction| |].
           ++ apply (crlf_one (length (b :: r)) _ _ (Nat.le_refl _)) in F. subst p. cbn [removelast last flat_map app fst snd].
              assert (NN : CR :: b :: r <> []) by discriminate.
              rewrite removelast_app by discriminate. rewrite removelast_cons by discriminate.
              rewrite cr_break by exact H. rewrite removelast_cons, last_cons by apply split_nonempty. cbn [map]. f_equal. f_equal.
              rewrite app_length. replace (length l + length (CR :: b :: r) - 1)%nat with (length l + length (b :: r))%nat by (cbn [length]; lia).
              rewrite skipn_app, skipn_all2 by lia. rewrite app_nil_l.
              replace (length l + length (b :: r) - length l)%nat with (S (length (b :: r) - 1)) by (cbn [length]; lia). reflexivity.
           ++ remember (p' :: ps) as q eqn:Eq. rewrite !removelast_cons, !last_cons by (subst q; discriminate). cbn [flat_map fst snd].
              rewrite piece_cr by exact H. reflexivity.
Qed.

(** ** Processing *)
Section Receiver.
  Variable c : est_params.

  Definition item_step (s : cli) (i : item) (tm tr : Z) : res cli :=
    match i with
    | FrameItem l => Ok (with_rx s (fst (process_line c (k_rx s) l tm tr)))
    | TextItem l => cli_text s l
    end.
  Fixpoint item_run (s : cli) (l : list item) (tm tr : Z) : res cli :=
    match l with [] => Ok s | i :: r => s1 <- item_step s i tm tr ;; item_run s1 r tm tr end.

  Lemma run_app l1 : forall s l2 tm tr, item_run s (l1 ++ l2) tm tr = (s1 <- item_run s l1 tm tr ;; item_run s1 l2 tm tr).
  Proof. induction l1 as [|i l1 IH]; intros; cbn [app item_run]; [reflexivity|]. destruct (item_step s i tm tr); cbn [bind]; auto. Qed.
  Lemma run_frames lines tm tr : forall s,
    item_run s (map FrameItem lines) tm tr = Ok (with_rx s (process_lines c (k_rx s) lines tm tr)).
  Proof.
    induction lines as [|l lines IH]; intros s; cbn [map item_run process_lines item_step bind]; [destruct s; reflexivity|].
    rewrite IH. reflexivity.
  Qed.
  Lemma run_pieces pieces tm tr : forall s s', item_run s (flat_map piece_items pieces) tm tr = Ok s' ->
    cli_pieces c s pieces tm tr = (s', None).
  Proof.
    induction pieces as [|p pieces IH]; intros s s' H; cbn [flat_map] in H.
    - cbn in H |- *. congruence.
    - unfold piece_items in H. rewrite <- app_assoc, run_app, run_frames in H. cbn [bind app item_run item_step] in H.
      apply bind_ok in H as (s1 & E & H). cbn [cli_pieces]. rewrite E. apply IH. exact H.
  Qed.

  (** The left over bytes play no part. *)
  Lemma with_data_twice s d d' : with_data (with_data s d) d' = with_data s d'.
  Proof. reflexivity. Qed.
  Lemma text_data s l d : cli_text (with_data s d) l = (s' <- cli_text s l ;; Ok (with_data s' d)).
  Proof.
    unfold cli_text. cbn [with_data with_rx k_lines k_outstanding]. destruct (k_lines s) as [|x output].
    - destruct (k_outstanding s) as [q|]; [|reflexivity]. destruct (utf8_encode (q_command q)); cbn [bind]; [|reflexivity].
      destruct (list_eqb l _); reflexivity.
    - destruct (list_eqb l [END_OF_TEXT]); [|reflexivity]. destruct (k_outstanding s); [|reflexivity].
      destruct (decode_lines output); reflexivity.
  Qed.
  Lemma step_data s i d tm tr : item_step (with_data s d) i tm tr = (s' <- item_step s i tm tr ;; Ok (with_data s' d)).
  Proof.
    destruct i as [l|l]; cbn [item_step bind]; [|apply text_data]. f_equal. unfold with_data. cbn [with_rx k_rx].
    change {| rx_data := d; rx_mono := rx_mono (k_rx s); rx_real := rx_real (k_rx s); rx_out := rx_out (k_rx s) |}
      with (set_data (k_rx s) d). rewrite process_data. reflexivity.
  Qed.
  Lemma run_data l : forall s d tm tr, item_run (with_data s d) l tm tr = (s' <- item_run s l tm tr ;; Ok (with_data s' d)).
  Proof.
    induction l as [|i l IH]; intros; cbn [item_run]; [reflexivity|]. rewrite step_data. destruct (item_step s i tm tr); cbn [bind]; auto.
  Qed.

  (** A reading with a request outstanding. *)
  Lemma read_mixed s r s' q : k_outstanding (cli_check s (rd_now r)) = Some q ->
    item_run (cli_check s (rd_now r)) (fst (scan [] (rx_data (k_rx s) ++ rd_bytes r))) (rd_mono r) (rd_real r) = Ok s' ->
    cli_read c s r = with_data s' (snd (scan [] (rx_data (k_rx s) ++ rd_bytes r))).
  Proof.
    intros K. set (d := rx_data (k_rx s) ++ rd_bytes r). rewrite <- (mixed_scan (length d)) by reflexivity.
    unfold cli_read. fold d. rewrite K. unfold mixed. cbn [fst snd]. set (tail := last (split_crlf d) []).
    rewrite run_app. intros H. apply bind_ok in H as (s2 & E & H). rewrite run_frames in H.
    assert (P := run_data (flat_map piece_items (removelast (split_crlf d))) (cli_check s (rd_now r)) tail (rd_mono r) (rd_real r)).
    rewrite E in P. cbn [bind] in P. apply run_pieces in P. rewrite P. rewrite with_data_twice.
    injection H as <-. cbn [with_data with_rx k_rx]. unfold with_data. cbn [with_rx k_rx].
    match goal with |- with_rx _ (process_lines _ ?x _ _ _) = _ => change x with (set_data (k_rx s2) (last (split_cr (removelast tail)) [] ++ skipn (length tail - 1) tail)) end.
    rewrite !process_lines_tagged, process_tagged_data. reflexivity.
  Qed.
  Lemma read_normal s r : k_outstanding (cli_check s (rd_now r)) = None ->
    cli_read c s r = with_data (with_rx (cli_check s (rd_now r))
      (process_tagged c (k_rx s) (map (fun l => (l, (rd_mono r, rd_real r))) (complete_lines [] (rx_data (k_rx s) ++ rd_bytes r)))))
      (remainder [] (rx_data (k_rx s) ++ rd_bytes r)).
  Proof.
    intros K. unfold cli_read. rewrite K.
    rewrite (split_lines (rx_data (k_rx s) ++ rd_bytes r) [] (fun x => x) : split_cr (rx_data (k_rx s) ++ rd_bytes r) = _).
    rewrite last_last, removelast_last.
    assert (R : k_rx (cli_check s (rd_now r)) = k_rx s).
    { unfold cli_check. destruct (k_outstanding s) as [q|]; [destruct (expired _ q)|]; try reflexivity; destruct (fetch _ _) as [[? ?] ?]; reflexivity. }
    unfold with_data. cbn [with_rx k_rx]. rewrite R.
    match goal with |- with_rx _ (process_lines _ ?x _ _ _) = _ => change x with (set_data (k_rx s) (remainder [] (rx_data (k_rx s) ++ rd_bytes r))) end.
    rewrite process_lines_tagged, process_tagged_data. reflexivity.
  Qed.
End Receiver.

(** ** What was sent *)

Lemma bytes_app a b : bytes_of (a ++ b) = bytes_of a ++ bytes_of b.
Proof. apply flat_map_app. Qed.
Lemma frames_app a b : frame_lines (a ++ b) = frame_lines a ++ frame_lines b.
Proof. apply flat_map_app. Qed.
Lemma texts_app a b : text_lines (a ++ b) = text_lines a ++ text_lines b.
Proof. apply flat_map_app. Qed.
Lemma item_nonempty i : item_bytes i <> [].
Proof. destruct i as [l|l]; cbn [item_bytes]; intros E; apply app_eq_nil in E as [_ E]; discriminate. Qed.

(** Two splittings of a string. *)
Lemma split_cases {A} (a b d u : list A) : d ++ u = a ++ b ->
  (exists e, d = a ++ e /\ e ++ u = b) \/ (exists e, a = d ++ e /\ e <> [] /\ u = e ++ b).
Proof.
  revert d. induction a as [|x a IH]; intros d H.
  - left. exists d. split; [reflexivity|exact H].
  - destruct d as [|y d].
    + right. exists (x :: a). split; [reflexivity|]. split; [discriminate|exact H].
    + cbn [app] in H. assert (y = x) by congruence. subst y. assert (H' : d ++ u = a ++ b) by congruence.
      destruct (IH _ H') as [(e & -> & E)|(e & -> & N & E)].
      * left. exists e. split; [reflexivity|exact E].
      * right. exists e. split; [reflexivity|]. split; assumption.
Qed.

(** A line feed may be left over from a line of text. *)
Definition a_lead (lead : list N) : Prop := lead = [] \/ lead = [LF].
Definition led (lead : list N) (l : list item) : list item :=
  match l with
  | [] => []
  | FrameItem x :: r => FrameItem (lead ++ x) :: r
  | TextItem x :: r => TextItem (lead ++ x) :: r
  end.
Lemma lead_plain lead l : a_lead lead -> ~ In CR l -> ~ In CR (lead ++ l).
Proof. intros [-> | ->] H; [exact H|]. intros [E|E]; [discriminate|contradiction]. Qed.

Lemma bytes_start R u d : Forall plain R -> d <> [] -> d ++ u = bytes_of R -> hd 0 d <> LF.
Proof.
  intros P N E. destruct R as [|i R]; [apply app_eq_nil in E as [-> _]; contradiction|].
  apply Forall_cons_iff in P as ((_ & L) & _). destruct d as [|b d]; [contradiction|]. cbn [hd].
  cbn [bytes_of flat_map] in E. destruct i as [l|l]; cbn [item_bytes item_line] in E, L; destruct l as [|x l]; cbn [app] in E.
  1, 3: assert (b = 13) by congruence; subst b; discriminate.
  all: assert (b = x) by congruence; subst x; intros ->; apply L; left; reflexivity.
Qed.

(** In the mixed mode, whole items are taken; what stays is less than an item
    of text, and no more than one of a frame. *)
Definition after_led (lead : list N) (R1 : list item) : list N := match R1 with [] => lead | _ => [] end.
Definition stuck (lead d : list N) (R : list item) : Prop :=
  match R with
  | [] => True
  | FrameItem l :: _ => (length d <= length lead + length (item_bytes (FrameItem l)))%nat
  | TextItem l :: _ => (length d < length lead + length (item_bytes (TextItem l)))%nat
  end.
Lemma scan_items R : Forall plain R -> forall lead d u, a_lead lead -> d ++ u = lead ++ bytes_of R ->
  exists R1 R2, R = R1 ++ R2 /\ fst (scan [] d) = led lead R1 /\
    snd (scan [] d) ++ u = after_led lead R1 ++ bytes_of R2 /\ stuck (after_led lead R1) (snd (scan [] d)) R2.
Proof.
  induction R as [|i R IH]; intros P lead d u A E.
  - exists [], []. split; [reflexivity|]. cbn [bytes_of flat_map] in E |- *. cbn [led after_led stuck].
    rewrite scan_none. { cbn [fst snd]. auto. }
    intros I. assert (I' : In CR (lead ++ [])) by (rewrite <- E; apply in_app_iff; left; exact I).
    revert I'. apply lead_plain; [exact A|intros []].
  - apply Forall_cons_iff in P as ((C & L) & P). destruct i as [l|l]; cbn [item_line] in C, L.
    + (* a frame *)
      assert (C' := lead_plain lead l A C).
      change (bytes_of (FrameItem l :: R)) with ((l ++ [CR]) ++ bytes_of R) in E.
      replace (lead ++ (l ++ [CR]) ++ bytes_of R) with ((lead ++ l) ++ CR :: bytes_of R) in E by (rewrite <- !app_assoc; reflexivity).
      destruct (split_cases _ _ _ _ E) as [(e & D & E1)|(e & D & N & E1)].
      * subst d. destruct e as [|b e].
        -- exists [], (FrameItem l :: R). split; [reflexivity|]. rewrite app_nil_r in *. rewrite scan_none by exact C'. cbn [fst snd led after_led stuck app].
           split; [reflexivity|]. rewrite E. split; [unfold bytes_of; cbn [flat_map item_bytes]; rewrite <- !app_assoc; reflexivity|].
           cbn [item_bytes]. rewrite !app_length. cbn [length]. lia.
        -- cbn [app] in E1. assert (b = CR) by congruence. subst b. assert (E2 : e ++ u = bytes_of R) by congruence. clear E1.
           rewrite scan_cr by exact C'. destruct e as [|b e].
           ++ exists [], (FrameItem l :: R). split; [reflexivity|]. cbn [fst snd led after_led stuck app].
              split; [reflexivity|]. split.
              ** cbn [app] in E2. subst u. unfold bytes_of. cbn [flat_map item_bytes]. rewrite <- !app_assoc. reflexivity.
              ** cbn [item_bytes]. rewrite !app_length. cbn [length]. lia.
           ++ assert (NB : b <> LF) by (apply (bytes_start R u (b :: e) P ltac:(discriminate) E2)).
              replace (b =? LF) with false by (symmetry; apply N.eqb_neq; exact NB). cbn [fst snd app].
              destruct (IH P [] (b :: e) u (or_introl eq_refl) E2) as (R1 & R2 & -> & F1 & F2 & F3).
              assert (AL : after_led [] R1 = []) by (destruct R1; reflexivity). rewrite AL in F2, F3.
              exists (FrameItem l :: R1), R2. split; [reflexivity|]. cbn [led after_led]. split.
              { f_equal. rewrite F1. destruct R1 as [|[x|x] R1]; reflexivity. }
              split; [exact F2|exact F3].
      * (* within the line *)
        exists [], (FrameItem l :: R). split; [reflexivity|].
        assert (ND : ~ In CR d) by (intros I; apply C'; rewrite D; apply in_app_iff; left; exact I).
        rewrite scan_none by exact ND. cbn [fst snd led after_led stuck app]. split; [reflexivity|]. split.
        { rewrite E. unfold bytes_of. cbn [flat_map item_bytes]. rewrite <- !app_assoc. reflexivity. }
        assert (LE : (length d <= length (lead ++ l))%nat) by (rewrite D, app_length; lia).
        cbn [item_bytes]. rewrite !app_length in *. cbn [length]. lia.
    + (* text *)
      assert (C' := lead_plain lead l A C).
      change (bytes_of (TextItem l :: R)) with ((l ++ [CR; LF]) ++ bytes_of R) in E.
      replace (lead ++ (l ++ [CR; LF]) ++ bytes_of R) with ((lead ++ l) ++ CR :: LF :: bytes_of R) in E by (rewrite <- !app_assoc; reflexivity).
      destruct (split_cases _ _ _ _ E) as [(e & D & E1)|(e & D & N & E1)].
      * subst d. destruct e as [|b e].
        -- exists [], (TextItem l :: R). split; [reflexivity|]. rewrite app_nil_r in *. rewrite scan_none by exact C'. cbn [fst snd led after_led stuck app].
           split; [reflexivity|]. rewrite E. split; [unfold bytes_of; cbn [flat_map item_bytes]; rewrite <- !app_assoc; reflexivity|].
           cbn [item_bytes]. rewrite !app_length. cbn [length]. lia.
        -- cbn [app] in E1. assert (b = CR) by congruence. subst b. assert (E2 : e ++ u = LF :: bytes_of R) by congruence. clear E1.
           rewrite scan_cr by exact C'. destruct e as [|b e].
           ++ exists [], (TextItem l :: R). split; [reflexivity|]. cbn [fst snd led after_led stuck app].
              split; [reflexivity|]. split.
              ** cbn [app] in E2. subst u. unfold bytes_of. cbn [flat_map item_bytes]. rewrite <- !app_assoc. reflexivity.
              ** cbn [item_bytes]. rewrite !app_length. cbn [length]. lia.
           ++ cbn [app] in E2. assert (b = LF) by congruence. subst b. assert (E3 : e ++ u = bytes_of R) by congruence.
              replace (LF =? LF) with true by reflexivity. cbn [fst snd app].
              destruct (IH P [] e u (or_introl eq_refl) E3) as (R1 & R2 & -> & F1 & F2 & F3).
              assert (AL : after_led [] R1 = []) by (destruct R1; reflexivity). rewrite AL in F2, F3.
              exists (TextItem l :: R1), R2. split; [reflexivity|]. cbn [led after_led]. split.
              { f_equal. rewrite F1. destruct R1 as [|[x|x] R1]; reflexivity. }
              split; [exact F2|exact F3].
      * exists [], (TextItem l :: R). split; [reflexivity|].
        assert (ND : ~ In CR d) by (intros I; apply C'; rewrite D; apply in_app_iff; left; exact I).
        rewrite scan_none by exact ND. cbn [fst snd led after_led stuck app]. split; [reflexivity|]. split.
        { rewrite E. unfold bytes_of. cbn [flat_map item_bytes]. rewrite <- !app_assoc. reflexivity. }
        assert (LE : (length d <= length (lead ++ l))%nat) by (rewrite D, app_length; lia).
        cbn [item_bytes]. rewrite !app_length in *. cbn [length]. lia.
Qed.

(** In the normal mode, an item of text is taken without its line feed. *)
Lemma complete_none l : forall cur, ~ In CR l -> complete_lines cur l = [] /\ remainder cur l = cur ++ l.
Proof.
  induction l as [|b l IH]; intros cur H; cbn; [rewrite app_nil_r; auto|].
  replace (b =? 13) with false by (symmetry; apply N.eqb_neq; intros ->; apply H; left; reflexivity).
  destruct (IH (cur ++ [b])) as (A & B); [intros I; apply H; right; exact I|]. rewrite A, B, <- app_assoc. auto.
Qed.
Lemma complete_cr l r : ~ In CR l -> complete_lines [] (l ++ CR :: r) = l :: complete_lines [] r /\
  remainder [] (l ++ CR :: r) = remainder [] r.
Proof.
  intros H. destruct (complete_app l [] (CR :: r)) as (A & B). destruct (complete_none l [] H) as (A' & B').
  rewrite A, B, A', B'. cbn [app complete_lines remainder]. change (CR =? 13) with true. cbn iota. auto.
Qed.
Definition taken (line : list N) (i : item) : Prop := line = item_line i \/ line = LF :: item_line i.
Lemma lead_taken lead i : a_lead lead -> taken (lead ++ item_line i) i.
Proof. intros [-> | ->]; [left|right]; reflexivity. Qed.

Lemma lines_items R : Forall plain R -> forall lead d u, a_lead lead -> d ++ u = lead ++ bytes_of R ->
  exists R1 R2 lead', R = R1 ++ R2 /\ a_lead lead' /\ Forall2 taken (complete_lines [] d) R1 /\
    remainder [] d ++ u = lead' ++ bytes_of R2 /\ (text_lines R1 = [] -> lead' = after_led lead R1) /\
    match R2 with [] => True | i :: _ => (length (remainder [] d) <= length lead' + length (item_line i))%nat end.
Proof.
  induction R as [|i R IH]; intros P lead d u A E.
  - exists [], [], lead. split; [reflexivity|]. split; [exact A|].
    destruct (complete_none d []) as (B1 & B2).
    { intros I. assert (I' : In CR (lead ++ bytes_of [])) by (rewrite <- E; apply in_app_iff; left; exact I).
      revert I'. apply lead_plain; [exact A|intros []]. }
    rewrite B1, B2. cbn [app]. split; [constructor|]. split; [exact E|]. auto.
  - apply Forall_cons_iff in P as ((C & L) & P).
    set (more := match i with FrameItem _ => [] | TextItem _ => [LF] end).
    assert (C' := lead_plain lead (item_line i) A C).
    assert (E' : d ++ u = (lead ++ item_line i) ++ CR :: more ++ bytes_of R).
    { rewrite E. unfold bytes_of, more. cbn [flat_map]. destruct i; cbn [item_bytes item_line app]; rewrite <- !app_assoc; reflexivity. }
    assert (Am : a_lead more) by (unfold more; destruct i; [left|right]; reflexivity).
    destruct (split_cases _ _ _ _ E') as [(e & D & E1)|(e & D & N & E1)].
    + destruct e as [|b e].
      * exists [], (i :: R), lead. split; [reflexivity|]. split; [exact A|]. rewrite app_nil_r in D. subst d.
        destruct (complete_none (lead ++ item_line i) [] C') as (B1 & B2). rewrite B1, B2. cbn [app].
        split; [constructor|]. split; [exact E|]. split; [auto|]. rewrite app_length. lia.
      * cbn [app] in E1. assert (b = CR) by congruence. subst b. assert (E2 : e ++ u = more ++ bytes_of R) by congruence.
        destruct (IH P more e u Am E2) as (R1 & R2 & lead' & -> & A' & F1 & F2 & F3 & F4).
        exists (i :: R1), R2, lead'. split; [reflexivity|]. split; [exact A'|]. subst d.
        destruct (complete_cr (lead ++ item_line i) e C') as (B1 & B2). rewrite B1, B2.
        split; [constructor; [apply lead_taken; exact A|exact F1]|]. split; [exact F2|]. split; [|exact F4].
        intros T. destruct i as [l|l]; [|discriminate]. cbn [more after_led] in *. rewrite F3 by exact T. destruct R1; reflexivity.
    + exists [], (i :: R), lead. split; [reflexivity|]. split; [exact A|].
      assert (ND : ~ In CR d) by (intros I; apply C'; rewrite D; apply in_app_iff; left; exact I).
      destruct (complete_none d [] ND) as (B1 & B2). rewrite B1, B2. cbn [app]. split; [constructor|]. split; [exact E|]. split; [auto|].
      assert (LE : (length d <= length (lead ++ item_line i))%nat) by (rewrite D, app_length; lia). rewrite app_length in LE. lia.
Qed.

(** ** A line feed before a line makes no difference *)
Lemma parse_lead l : slcan_parse (LF :: l) = slcan_parse l.
Proof. reflexivity. Qed.
Lemma process_lead c s lead l tm tr : a_lead lead -> process_line c s (lead ++ l) tm tr = process_line c s l tm tr.
Proof. intros [-> | ->]; [reflexivity|]. cbn [app]. unfold process_line. rewrite parse_lead. reflexivity. Qed.
Lemma no_frame_lead lead l : a_lead lead -> no_frame l -> no_frame (lead ++ l).
Proof. intros [-> | ->] H; [exact H|]. unfold no_frame. cbn [app]. rewrite parse_lead. exact H. Qed.

Lemma normal_items c tm tr lines R : Forall2 taken lines R -> Forall no_frame (text_lines R) -> forall s,
  process_tagged c s (map (fun l => (l, (tm, tr))) lines) = process_tagged c s (map (fun l => (l, (tm, tr))) (frame_lines R)).
Proof.
  intros F. induction F as [|l i lines R T F IH]; intros NF s; [reflexivity|]. destruct i as [x|x]; unfold taken in T; cbn [item_line] in T.
  - cbn [frame_lines flat_map app map process_tagged]. rewrite (IH NF). f_equal. f_equal.
    destruct T as [-> | ->]; [reflexivity|]. apply (process_lead c s [LF] x); right; reflexivity.
  - apply Forall_cons_iff in NF as (NX & NF). cbn [map process_tagged]. rewrite not_a_frame; [apply IH; exact NF|].
    destruct T as [-> | ->]; [exact NX|]. apply (no_frame_lead [LF] x); [right; reflexivity|exact NX].
Qed.

(** ** Taking items with a request outstanding *)
Lemma text_rx s l s' : cli_text s l = Ok s' -> k_rx s' = k_rx s /\ k_errors s' = k_errors s.
Proof.
  unfold cli_text. intros H. destruct (k_lines s) as [|x output].
  - destruct (k_outstanding s); [|injection H as <-; auto]. apply bind_ok in H as (e & _ & H).
    destruct (list_eqb l e); injection H as <-; auto.
  - destruct (list_eqb l [END_OF_TEXT]); [|injection H as <-; auto]. destruct (k_outstanding s); [|discriminate].
    apply bind_ok in H as (e & _ & H). injection H as <-. auto.
Qed.
Lemma run_rx c tm tr l : forall s s', item_run c s l tm tr = Ok s' ->
  k_rx s' = process_tagged c (k_rx s) (map (fun l => (l, (tm, tr))) (frame_lines l)).
Proof.
  induction l as [|i l IH]; intros s s' H; cbn [item_run] in H; [injection H as <-; reflexivity|].
  apply bind_ok in H as (s1 & E & H). apply IH in H. destruct i as [x|x]; cbn [item_step] in E.
  - injection E as <-. exact H.
  - apply text_rx in E as (E & _). rewrite <- E. exact H.
Qed.
Lemma led_frames c tm tr lead R : a_lead lead -> forall s,
  process_tagged c s (map (fun l => (l, (tm, tr))) (frame_lines (led lead R))) = process_tagged c s (map (fun l => (l, (tm, tr))) (frame_lines R)).
Proof.
  intros A s. destruct R as [|[x|x] R]; [reflexivity| |reflexivity]. cbn [led frame_lines flat_map app map process_tagged].
  rewrite process_lead by exact A. reflexivity.
Qed.
