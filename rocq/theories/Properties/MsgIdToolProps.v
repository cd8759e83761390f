(** Property of the identifier decoding tool: C109. *)
From Coq Require Import String.
From Verif.Base Require Import Prelude Bits.
From Verif.Model Require Import Slcan Parser MsgIdTool MsgId.
From Verif.Spec Require Import ParserSpec GrammarSpec LineSpec PathSpec MsgIdSpec.
From Verif.Proofs Require Import GrammarNumbers LineFacts PathFacts MsgIdFacts.
Local Open Scope N_scope.
Local Open Scope list_scope.

(** What is to be printed for a transfer. *)
Definition right_print (h : header) (x : N * N * printed) : Prop :=
  h_source h = Some (fst (fst x)) /\ h_priority h = snd (fst x) /\
  match snd x with
  | PrintedService dest request type => h_service h = true /\ h_dest h = Some dest /\ h_request h = request /\ h_dtid h = type
  | PrintedMessage type => h_service h = false /\ h_dtid h = type
  end.

(** ** C109

    The full statement is: for the identifier of any transfer the tool prints
    what that transfer is. *)

(** It is false for anonymous messages: the discriminator is printed as a part
    of the type. *)
Theorem C109_anonymous_refuted : exists h, legal h /\ message_id h = Ok (can_id h) /\ ~ right_print h (decode_msgid (can_id h)).
Proof.
  exists (Header 30 false false (Some 0) None 1 (Some 3)). assert (L : legal (Header 30 false false (Some 0) None 1 (Some 3))) by (constructor; reflexivity).
  split; [exact L|]. split; [apply message_id_layout, L|]. intros (_ & _ & _ & H). vm_compute in H. discriminate.
Qed.
Print Assumptions C109_anonymous_refuted.

(** It is true for all other transfers. *)
Theorem C109_printed_partial : forall h, legal h -> h_service h = true \/ h_source h <> Some 0 -> right_print h (decode_msgid (can_id h)).
Proof.
  intros h L A. assert (E := decode_encode h L). set (v := can_id h) in *. clearbody v. rewrite <- E in A |- *.
  rewrite set_message_id_arith in A |- *. cbv zeta in A |- *.
  assert (D : decode_msgid v = (v mod 128, (v / 2 ^ 24) mod 2 ^ 5,
    if (v / 2 ^ 7) mod 2 =? 1 then PrintedService ((v / 2 ^ 8) mod 2 ^ 7) ((v / 2 ^ 15) mod 2 =? 1) ((v / 2 ^ 16) mod 2 ^ 8)
    else PrintedMessage ((v / 2 ^ 8) mod 2 ^ 16))).
  { unfold decode_msgid. cbv zeta. change (N.land (N.shiftr v 7) 1) with (N.land (N.shiftr v 7) (2 ^ 1 - 1)).
    change (N.land (N.shiftr v 15) 1) with (N.land (N.shiftr v 15) (2 ^ 1 - 1)). norm_masks.
    assert (B : forall x, negb (x mod 2 ^ 1 =? 0) = (x mod 2 =? 1)) by (intros x; change (2 ^ 1) with 2; lia).
    rewrite !B. change (2 ^ 0) with 1. rewrite N.div_1_r. reflexivity. }
  rewrite D. unfold right_print. cbn [fst snd].
  destruct ((v / 2 ^ 7) mod 2 =? 1) eqn:S; cbn [h_source h_priority h_service h_dest h_request h_dtid].
  - repeat split.
  - destruct (v mod 128 =? 0) eqn:Z; cbn [h_source h_priority h_service h_dest h_request h_dtid] in *.
    + exfalso. destruct A as [A|A]; [discriminate|]. apply A. f_equal. lia.
    + repeat split.
Qed.
Print Assumptions C109_printed_partial.
Example C109_case : legal (Header 16 true true (Some 100) (Some 42) 11 None) /\
  decode_msgid (can_id (Header 16 true true (Some 100) (Some 42) 11 None)) = (100, 16, PrintedService 42 true 11).
Proof. split; [constructor; lia|vm_compute; reflexivity]. Qed.

(** The identifier as a text. Decimal numbers are read as such, and
    hexadecimal ones if they have a letter or 0x, for all these transfers. *)
Definition letter (c : N) : Prop := 65 <= c <= 90 \/ 97 <= c <= 122.
Lemma decimal_letterless s z : PathSpec.decimal_text s z -> Forall (fun c => ~ letter c) s.
Proof.
  intros (a & core & b & -> & Hab & H). apply Forall_app in Hab as (Ha & Hb).
  assert (W : forall l, Forall (fun c => blank c \/ eol c) l -> Forall (fun c => ~ letter c) l).
  { intros l. apply Forall_impl. unfold blank, eol, letter. intros c. lia. }
  assert (M : forall acc r v, more 10 acc r v -> Forall (fun c => ~ letter c) r).
  { intros acc r v X. induction X as [|acc c d r v D X IH|acc c d r v D X IH]; repeat constructor; try exact IH;
      unfold digit_of, underscore, letter in *; lia. }
  assert (D : forall r v, digits 10 r v -> Forall (fun c => ~ letter c) r).
  { intros r v (c & d & r' & -> & Hd & Hm). constructor; [unfold digit_of, letter in *; lia|exact (M _ _ _ Hm)]. }
  apply Forall_app. split; [exact (W _ Ha)|]. apply Forall_app. split; [|exact (W _ Hb)].
  destruct H as (v & [(H & _)|[(r & -> & H & _)|(r & -> & H & _)]]); apply D in H; [exact H|..];
    (constructor; [unfold letter; lia|exact H]).
Qed.
Lemma legal_small h : legal h -> can_id h < 2 ^ 29.
Proof. intros H. destruct H; unfold can_id; cbn [h_priority h_service h_request h_source h_dest h_dtid h_discriminator]; repeat dif; try destruct r; lia. Qed.
Theorem C109_text_partial : forall h s, legal h -> h_service h = true \/ h_source h <> Some 0 ->
  PathSpec.decimal_text s (Z.of_N (can_id h)) \/
  loose_number s (Z.of_N (can_id h)) /\ (exists c, In c s /\ letter c) ->
  exists x, decode_argument s = Ok x /\ right_print h x.
Proof.
  intros h s L A T. exists (decode_msgid (can_id h)). split; [|apply C109_printed_partial; assumption].
  assert (E : num s = Ok (Z.of_N (can_id h))).
  { unfold num. destruct T as [T|(T & c & I & Hc)].
    - apply py_int10 in T. rewrite T. reflexivity.
    - destruct (py_int 10 s) as [z|e] eqn:P; [|apply int16_loose; exact T].
      apply py_int10, decimal_letterless in P. rewrite Forall_forall in P. contradiction (P c I Hc). }
  unfold decode_argument. rewrite E. cbn [bind]. pose proof (legal_small h L) as B.
  rewrite Z.mod_small by lia. rewrite N2Z.id. reflexivity.
Qed.
Print Assumptions C109_text_partial.
(** 0x1000AA6F and 268479087: a message from node 111. *)
Example C109_text_case : let h := Header 16 false false (Some 111) None 170 None in
  legal h /\ loose_number (txt "1000AA6f"%string) (Z.of_N (can_id h)) /\
  decode_argument (txt "1000AA6f"%string) = Ok (111, 16, PrintedMessage 170) /\
  decode_argument (txt "0x1000AA6F"%string) = Ok (111, 16, PrintedMessage 170) /\
  decode_argument (txt "268479087"%string) = Ok (111, 16, PrintedMessage 170).
Proof. split; [constructor; lia|]. split; [apply int16_loose; vm_compute; reflexivity|]. vm_compute. repeat split. Qed.
(** A hexadecimal number without letters, as CAN tools print them, is taken
    for a decimal one. *)
Theorem C109_hex_refuted : exists h s x, legal h /\ (h_service h = true \/ h_source h <> Some 0) /\
  digits 16 s (can_id h) /\ List.length s = 8%nat /\ decode_argument s = Ok x /\ ~ right_print h x.
Proof.
  set (h := Header 16 false false (Some 1) None 341 None). exists h, (txt "10015501"%string), (13, 0, PrintedMessage 39123).
  split; [constructor; lia|]. split; [right; discriminate|]. split.
  { apply (proj1 (GrammarNumbers.scan_digits 16 (txt "10015501"%string) (can_id h) ltac:(lia))). vm_compute. reflexivity. }
  split; [reflexivity|]. split; [vm_compute; reflexivity|]. intros (H & _). vm_compute in H. discriminate.
Qed.
Print Assumptions C109_hex_refuted.
