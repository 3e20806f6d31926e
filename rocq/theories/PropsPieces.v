(** * PropsPieces: messages may arrive in pieces (C78).

    Vocabulary: Pieces.v gives the loop of a program that receives a stream piece by piece
    ([receive]), keeps the bytes that belong to no complete message yet and reports what it
    can see of each complete message: kind, String(), Reserved() and Dump(). [receive true]
    calls msg.Parse(buf[:length:length]), [receive false] calls msg.Parse(buf[:length]).
    [place] is the choice of the runtime where the bytes are kept. [entire k bs]: a complete
    message that NewMessage accepts, sound or not. [arrived ms n]: the messages that are
    complete after [n] bytes. [one_by_one]: each message parsed in a buffer of its own. *)

From Coq Require Import NArith ZArith Bool String Arith List Lia.
From Verif Require Import GoBase GoFmt ClcModel Samples Wire ClcView Show Sound Stream Pieces.
From Verif Require PiecesFacts PiecesExamples.
From Verif Require Import Witness.
Import ListNotations.
Local Open Scope nat_scope.

(** ** C78 *)

(** however the stream is cut, each message is reported as if it were parsed alone, and with
    the piece that completes it; logs and panics are those of the messages parsed alone *)
Theorem C78_pieces : forall place pieces ms missing, keeps place ->
  Forall (fun kb => entire (fst kb) (snd kb)) ms ->
  concat pieces ++ missing = concat (map snd ms) ->
  (let* rs := receive true place 0 [] pieces in ret (concat rs)) = one_by_one (arrived ms (length (concat pieces))) /\
  forall l rs, receive true place 0 [] pieces = (l, Done rs) ->
    length rs = length pieces /\
    forall j, length (concat (firstn j rs)) = length (arrived ms (length (concat (firstn j pieces)))).
Proof. exact PiecesFacts.pieces_whole. Qed.
Print Assumptions C78_pieces.

(** two ways to cut the same bytes, kept at different places: the same reports, logs and end *)
Theorem C78_any_split : forall place1 place2 pieces1 pieces2 ms missing, keeps place1 -> keeps place2 ->
  Forall (fun kb => entire (fst kb) (snd kb)) ms -> concat pieces1 = concat pieces2 ->
  concat pieces1 ++ missing = concat (map snd ms) ->
  (let* rs := receive true place1 0 [] pieces1 in ret (concat rs)) =
  (let* rs := receive true place2 0 [] pieces2 in ret (concat rs)).
Proof. exact PiecesFacts.pieces_split. Qed.
Print Assumptions C78_any_split.

(** sound messages: nothing is logged, nothing panics, and the texts are those of the
    specification, also if the capacity is not limited *)
Theorem C78_good : forall only place pieces ms missing, keeps place ->
  Forall (fun kb => good (fst kb) (snd kb)) ms ->
  concat pieces ++ missing = concat (map snd ms) ->
  exists rs, receive only place 0 [] pieces = ([], Done rs) /\ length rs = length pieces /\
    forall j, concat (firstn j rs) =
      map (fun kb => (fst kb, sound_text false (fst kb) (snd kb), sound_text true (fst kb) (snd kb), hex_dump (snd kb)))
        (arrived ms (length (concat (firstn j pieces)))).
Proof. exact PiecesFacts.pieces_good. Qed.
Print Assumptions C78_good.

(** if the capacity is not limited, the way the stream is cut can decide between a report and
    a panic: a Proposal that is too short for its areas reads on into the next message *)
Theorem C78_capacity_refuted : exists ms pieces1 pieces2 rs, Forall (fun kb => entire (fst kb) (snd kb)) ms /\
  concat pieces1 = concat (map snd ms) /\ concat pieces2 = concat (map snd ms) /\
  snd (receive false PiecesExamples.new_array 0 [] pieces1) = Done rs /\
  snd (receive false PiecesExamples.new_array 0 [] pieces2) = Panicked.
Proof. exact PiecesExamples.pieces_matter. Qed.
Print Assumptions C78_capacity_refuted.

(** a handshake in five pieces, two of them in the middle of headers, the last message not
    complete *)
Example C78_example :
  let ms := [(KProposal, sample_proposal_6); (KAcceptSMCR, sample_accept_r); (KConfirmSMCR, sample_confirm_r)] in
  let bs := concat (map snd ms) in
  let pieces := [firstn 5 bs; []; firstn 70 (skipn 5 bs); firstn 90 (skipn 75 bs); firstn 30 (skipn 165 bs)] in
  keeps PiecesExamples.new_array /\ keeps PiecesExamples.big_array /\
  Forall (fun kb => good (fst kb) (snd kb)) ms /\
  concat pieces ++ skipn 195 bs = bs /\
  exists rs, receive false PiecesExamples.big_array 0 [] pieces = ([], Done rs) /\
    receive true PiecesExamples.new_array 0 [] pieces = ([], Done rs) /\
    map (map (fun x : seen => fst (fst (fst x)))) rs = [[]; []; [KProposal]; [KAcceptSMCR]; []].
Proof.
  cbv zeta. split; [exact PiecesExamples.new_array_keeps|]. split; [exact PiecesExamples.big_array_keeps|]. split.
  - apply Forall_cons; [|apply Forall_cons; [|apply Forall_cons; [|apply Forall_nil]]]; cbn [fst snd];
      (split; [vm_compute; reflexivity|]);
      (split; [match goal with |- kind_rel (msg_type ?b) (msg_version ?b) (msg_path ?b) _ =>
          let t := eval vm_compute in (msg_type b) in replace (msg_type b) with t by (vm_compute; reflexivity);
          let t := eval vm_compute in (msg_version b) in replace (msg_version b) with t by (vm_compute; reflexivity);
          let t := eval vm_compute in (msg_path b) in replace (msg_path b) with t by (vm_compute; reflexivity);
          constructor; discriminate end|]);
      (split; [vm_compute; reflexivity|]); (split; [apply Nat.leb_le; vm_compute; reflexivity|]);
      (split; [|discriminate]);
      (split; [apply Nat.leb_le; vm_compute; reflexivity|split; [vm_compute; reflexivity|try exact I]]).
    apply Nat.leb_le; vm_compute; reflexivity.
  - split; [vm_compute; reflexivity|]. eexists. split; [vm_compute; reflexivity|]. split; vm_compute; reflexivity.
Qed.

(** messages that are complete but not sound meet the hypotheses of the first two theorems; the
    Proposal makes Parse panic, in whatever pieces it arrives *)
Example C78_not_sound :
  let ms := [(KProposal, PiecesExamples.short_proposal_d); (KAcceptSMCR, sample_accept_r)] in
  let bs := concat (map snd ms) in
  Forall (fun kb => entire (fst kb) (snd kb)) ms /\ length bs = 120 /\
  snd (receive true PiecesExamples.big_array 0 [] [bs]) = Panicked /\
  snd (receive true PiecesExamples.new_array 0 [] [firstn 51 bs; firstn 1 (skipn 51 bs); skipn 52 bs]) = Panicked /\
  receive true PiecesExamples.new_array 0 [] [firstn 51 bs] = ([], Done [[]]).
Proof.
  cbv zeta. split; [exact PiecesExamples.short_stream_entire|]. repeat split; vm_compute; reflexivity.
Qed.
