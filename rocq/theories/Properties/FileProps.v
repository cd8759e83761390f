(** Properties of the file server. *)
From Verif.Base Require Import Prelude.
From Verif.Model Require Import Utf8 FileServer.
From Verif.Spec Require Import FileSpec.
From Verif.Proofs Require Import FileFacts.
Local Open Scope N_scope.

(** Cases: a file system with two files, ASCII paths. *)
Definition a_srv : str := [slash; 115; 114; 118].                       (* /srv *)
Definition fw_bin : str := [102; 119; slash; dot; slash; 98; 105; 110]. (* fw/./bin *)
Definition srv_fw_bin : str := a_srv ++ [slash; 102; 119; slash; 98; 105; 110].
Definition etc_pw : str := [slash; 101; 116; 99; slash; 112; 119].      (* /etc/pw *)
Definition up_etc_pw : str := [dot; dot] ++ etc_pw.                     (* ../etc/pw *)
Definition blob : list N := map (fun i => N.of_nat i mod 251) (seq 0 700).
Definition file_at (p : list str) (s : str) : bool :=
  match list_eq_dec (list_eq_dec N.eq_dec) (place s) p with left _ => true | right _ => false end.
Definition a_isfile (s : str) : bool := file_at (place srv_fw_bin) s || file_at (place etc_pw) s.
Definition a_contents (s : str) : option (list N) :=
  if file_at (place srv_fw_bin) s then Some blob else if file_at (place etc_pw) s then Some [1; 2; 3] else None.

(** C41. Chunk after chunk gives the file. *)
Theorem C41_fetch : forall isfile abspath contents decode lookup pm raw path out data k,
  decode raw = Some path -> resolve_path isfile abspath lookup pm path = Ok out ->
  contents out = Some data -> N.of_nat (length data) < 2 ^ 40 ->
  (length data < k * 256)%nat ->
  fetch k (fun o => match read isfile abspath contents decode lookup pm raw o with
                    | Ok r => r | Err _ => None end) 256 0 = Some data.
Proof.
  intros isfile abspath contents decode lookup pm raw path out data k D R C L K.
  apply (fetch_file isfile abspath contents decode lookup pm raw path out data k D R C); [|exact K].
  change (2 ^ 40) with (N.succ max_offset) in L. lia.
Qed.
Print Assumptions C41_fetch.

Example C41_case :
  let rd o := match read a_isfile (fun p => p) a_contents Some [a_srv] [] fw_bin o with
              | Ok r => r | Err _ => None end in
  resolve_path a_isfile (fun p => p) [a_srv] [] fw_bin = Ok srv_fw_bin /\
  fetch 3 rd chunk_size 0 = Some blob /\ option_map (@length N) (rd 512) = Some 188%nat /\ rd 5000 = Some [].
Proof. vm_compute. repeat split. Qed.
Print Assumptions C41_case.

(** C42. A relative path that never leads above its start is mapped, or is a
    listed file, or lies under a listed directory, where the path says. *)
Theorem C42_confined_partial : forall isfile abspath lookup pm path out,
  relative path = true -> never_above 0 (split_slash path) = true ->
  resolve_path isfile abspath lookup pm path = Ok out ->
  In (path, out) pm \/
  isfile out = true /\ exists p, In p lookup /\
    (out = abspath p \/ place out = place (abspath p) ++ place path).
Proof. exact confined. Qed.
Print Assumptions C42_confined_partial.

Example C42_case :
  relative fw_bin = true /\ never_above 0 (split_slash fw_bin) = true /\
  place srv_fw_bin = place a_srv ++ place fw_bin /\
  resolve_path a_isfile (fun p => p) [a_srv] [] fw_bin = Ok srv_fw_bin /\
  resolve_path a_isfile (fun p => p) [srv_fw_bin] [] [98; 105; 110] = Ok srv_fw_bin /\
  resolve_path a_isfile (fun p => p) [a_srv] [] [98; 105; 110] = Err OSError.
Proof. vm_compute. repeat split. Qed.
Print Assumptions C42_case.

(** Paths from the root: three or more slashes in front are one, two stay
    two (they may mean something else to the system). *)
Theorem C42_slashes : forall n s, relative s = true ->
  ((3 <= n)%nat -> normpath (repeat slash n ++ s) = normpath (slash :: s)) /\
  normpath (slash :: slash :: s) = slash :: normpath (slash :: s).
Proof. intros n s R. split; [exact (normpath_slashes n s R)|exact (normpath_two s R)]. Qed.
Print Assumptions C42_slashes.
Example C42_slashes_case : relative fw_bin = true /\ normpath ([slash; slash; slash] ++ fw_bin) = [slash; 102; 119; slash; 98; 105; 110].
Proof. vm_compute. split; reflexivity. Qed.

(** Other paths lead to any file: with "..", and from the root. *)
Theorem C42_confined_refuted :
  (exists path data, relative path = true /\
     read a_isfile (fun p => p) a_contents Some [a_srv] [] path 0 = Ok (Some data) /\
     exists out, resolve_path a_isfile (fun p => p) [a_srv] [] path = Ok out /\
       firstn (length (place a_srv)) (place out) <> place a_srv) /\
  (exists path data,
     read a_isfile (fun p => p) a_contents Some [a_srv] [] path 0 = Ok (Some data) /\
     resolve_path a_isfile (fun p => p) [a_srv] [] path = Ok etc_pw).
Proof.
  split.
  - exists up_etc_pw, [1; 2; 3]. split; [reflexivity|]. split; [vm_compute; reflexivity|].
    exists (a_srv ++ [slash] ++ up_etc_pw). split; [vm_compute; reflexivity|]. vm_compute. discriminate.
  - exists etc_pw, [1; 2; 3]. vm_compute. split; reflexivity.
Qed.
Print Assumptions C42_confined_refuted.

(** C89. The size in the answer to GetInfo is that of what reading yields, and
    both requests fail alike. *)
Theorem C89_size : forall isfile abspath contents decode lookup pm raw n k,
  get_info isfile abspath contents decode lookup pm raw = Ok (Some n) -> n < 2 ^ 40 - 1 ->
  n < N.of_nat (k * 256) ->
  exists data,
    fetch k (fun o => match read isfile abspath contents decode lookup pm raw o with
                      | Ok r => r | Err _ => None end) 256 0 = Some data /\
    N.of_nat (length data) = n.
Proof. exact info_fetch. Qed.
Print Assumptions C89_size.

Theorem C89_failure : forall isfile abspath contents decode lookup pm raw,
  get_info isfile abspath contents decode lookup pm raw = Ok None <->
  forall o, read isfile abspath contents decode lookup pm raw o = Ok None.
Proof. intros. apply info_read. Qed.
Print Assumptions C89_failure.

Example C89_case :
  get_info a_isfile (fun p => p) a_contents Some [a_srv] [] fw_bin = Ok (Some 700) /\
  get_info a_isfile (fun p => p) a_contents Some [a_srv] [] [98] = Ok None /\
  read a_isfile (fun p => p) a_contents Some [a_srv] [] [98] 0 = Ok None.
Proof. vm_compute. repeat split. Qed.
Print Assumptions C89_case.

(** C90. Requests are answered if their paths are UTF-8, and only then. *)
Theorem C90_answered_partial : forall isfile abspath contents decode lookup pm raw offset,
  decode raw <> None ->
  exists r s, get_info isfile abspath contents decode lookup pm raw = Ok r /\
    read isfile abspath contents decode lookup pm raw offset = Ok s.
Proof.
  intros isfile abspath contents decode lookup pm raw offset Hd.
  destruct (info_read isfile abspath contents decode lookup pm raw) as (_ & H1 & H2). specialize (H2 offset).
  destruct (get_info isfile abspath contents decode lookup pm raw) as [r|e]; [|exfalso; apply Hd, H1; eauto].
  destruct (read isfile abspath contents decode lookup pm raw offset) as [s|e]; [|exfalso; apply Hd, H2; eauto].
  eauto.
Qed.
Print Assumptions C90_answered_partial.

Definition decode_utf8 (raw : list N) : option str :=
  match utf8_decode raw with Ok s => Some s | Err _ => None end.
Theorem C90_answered_refuted : exists raw,
  (forall isfile abspath contents lookup pm,
     get_info isfile abspath contents decode_utf8 lookup pm raw = Err UnicodeError) /\
  (forall isfile abspath contents lookup pm offset,
     read isfile abspath contents decode_utf8 lookup pm raw offset = Err UnicodeError).
Proof. exists [255]. split; reflexivity. Qed.
Print Assumptions C90_answered_refuted.

Example C90_case : decode_utf8 fw_bin = Some fw_bin /\ decode_utf8 [195; 169] = Some [233].
Proof. vm_compute. split; reflexivity. Qed.
Print Assumptions C90_case.
