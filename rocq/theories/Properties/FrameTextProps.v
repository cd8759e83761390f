(** C162: the text of a frame tells what is in it. *)
From Verif.Base Require Import Prelude.
From Verif.Model Require Import CanFrame FrameText.
From Verif.Spec Require Import FrameTextSpec.
From Verif.Proofs Require Import FrameTextFacts.
Local Open Scope N_scope.

Definition text_frame := CFrame 0x18015501 [0; 65; 39; 10; 255] true false 0.
Definition text_fd := CFrame 0x7ff (repeat 27 64) false true 0.
Definition text_time := [49; 46; 53].

(** Frames that are printed in the same way, with the same times, have the same
    identifier, data and format. *)
Theorem C162_tells : forall mono real f g, real_frame f -> real_frame g -> frame_text mono real f = frame_text mono real g ->
  c_id f = c_id g /\ c_data f = c_data g /\ c_ext f = c_ext g /\ c_fd f = c_fd g.
Proof. exact text_tells. Qed.
Print Assumptions C162_tells.
Example C162_tells_case : real_frame text_frame /\ real_frame text_fd.
Proof.
  split; (split; [cbn; lia|]); (split; [|cbn; lia]); cbn; repeat (constructor; [lia|]); constructor.
Qed.
Example C162_text_case : frame_text text_time text_time text_frame =
  [49; 46; 53; 32; 49; 46; 53; 32; 32; 32; 32; 32; 49; 56; 48; 49; 53; 53; 48; 49; 32; 32; 48; 48; 32; 52; 49; 32; 50; 55; 32; 48; 97; 32; 102; 102;
   32; 32; 32; 32; 32; 32; 32; 32; 32; 32; 32; 32; 39; 46; 65; 39; 46; 46; 39].
Proof. vm_compute. reflexivity. Qed.

(** Whatever the data, the text is one line of printable characters. *)
Theorem C162_line : forall mono real f, Forall printable mono -> Forall printable real -> Forall printable (frame_text mono real f).
Proof. exact text_line. Qed.
Print Assumptions C162_line.
Example C162_line_case : Forall printable text_time /\ ~ Forall printable (c_data text_fd).
Proof.
  split; [unfold printable; repeat (constructor; [lia|]); constructor|]. intros H. cbn in H. inversion H as [|? ? X _]; subst. unfold printable in X. lia.
Qed.

(** It ends with the data as characters, in quotes. *)
Theorem C162_characters : forall mono real f, exists before chars,
  frame_text mono real f = before ++ 39 :: chars ++ [39] /\ Forall2 shown_as (c_data f) chars.
Proof. exact text_shown. Qed.
Print Assumptions C162_characters.
Example C162_characters_case : ascii_text text_frame = [46; 65; 39; 46; 46].
Proof. vm_compute. reflexivity. Qed.
