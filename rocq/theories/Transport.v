(** Chunked snapshot transport, [network/snapshot_transport.rs]. *)
From Verif Require Import Types.
From stdpp Require Import base numbers list.

(** a byte *)
Notation Byte := nat (only parsing).

(** [InstallSnapshotRequest] without the vote; of the snapshot meta only its id *)
Record ChunkReq := mkChunk { ck_id : nat; ck_offset : nat; ck_data : list Byte; ck_done : bool }.

(** ** The receiver *)

(** [Streaming], [snapshot_transport.rs:350-363]; the writer is a byte list with a cursor,
    which is [offset] *)
Record Streaming := mkStreaming { st_offset : nat; st_id : nat; st_data : list Byte }.
(** writing at the cursor of a file or in-memory buffer; a gap reads as zeros *)
Definition write_at (off : nat) (bs data : list Byte) : list Byte :=
  take off (data ++ replicate (off - length data) 0) ++ bs ++ drop (off + length bs) data.
(** [Streaming::receive], [snapshot_transport.rs:236-266]: seek if the offset differs, write *)
Definition stm_receive (req : ChunkReq) (s : Streaming) : Streaming :=
  let off := if ck_offset req =? st_offset s then st_offset s else ck_offset req in
  mkStreaming (off + length (ck_data req)) (st_id s) (write_at off (ck_data req) (st_data s)).

Inductive ChunkReply :=
| ChMismatch                  (* SnapshotMismatch *)
| ChAccepted                  (* Ok(None) *)
| ChComplete (data : list Byte). (* Ok(Some(snapshot)) *)

(** [receive_snapshot], [snapshot_transport.rs:178-227]; [begin_receiving_snapshot] gives an
    empty writer; storage errors are not modelled *)
Definition receive_chunk (s : option Streaming) (req : ChunkReq) : option Streaming * ChunkReply :=
  let same := match s with Some x => st_id x =? ck_id req | None => false end in
  if negb same && negb (ck_offset req =? 0) then (s, ChMismatch)
  else
    let cur := match s with
               | Some x => if same then x else mkStreaming 0 (ck_id req) []
               | None => mkStreaming 0 (ck_id req) []
               end in
    let s' := stm_receive req cur in
    if ck_done req then (None, ChComplete (st_data s')) else (Some s', ChAccepted).

(** ** The sender *)

(** the request [send_snapshot] builds for an offset, [snapshot_transport.rs:72-94]; the
    buffer's capacity is taken to be exactly the chunk size *)
Definition chunk_at (id size : nat) (bytes : list Byte) (off : nat) : ChunkReq :=
  let d := take size (drop off bytes) in
  mkChunk id off d (off + length d =? length bytes).

Inductive Sender := Sending (off : nat) | Finished | Stopped.

(** what the sender does with the outcome of a request, [snapshot_transport.rs:106-169]:
    [None] is a timeout or any error but a mismatch *)
Definition sender_next (id size : nat) (bytes : list Byte) (off : nat) (r : option ChunkReply) : Sender :=
  match r with
  | None => Sending off
  | Some ChMismatch => Sending 0
  | Some _ => let req := chunk_at id size bytes off in
              if ck_done req then Finished else Sending (off + length (ck_data req))
  end.

(** ** A transfer under faults *)

Inductive Fault :=
| FReplied              (* request and reply arrive *)
| FLost                 (* the request is lost *)
| FReplyLost            (* the request is handled, the reply is lost *)
| FRestart              (* the receiver restarts *)
| FSenderRestart        (* the sender starts sending this snapshot again *)
| FHigherVote           (* the receiver has a greater vote: the sender stops *)
| FOther (req : ChunkReq)  (* a request of another sender *)
| FDelayed (i : nat).   (* the network delivers (again) the i-th request sent so far *)

Record Xfer := mkXfer {
  xf_sender : Sender; xf_recv : option Streaming;
  xf_sent : list ChunkReq;              (* requests sent so far *)
  xf_out : list (nat * list Byte) }.    (* snapshots the receiver has completed *)

Definition xf_deliver (req : ChunkReq) (x : Xfer) : Xfer * ChunkReply :=
  let '(s', r) := receive_chunk (xf_recv x) req in
  (mkXfer (xf_sender x) s' (xf_sent x)
     (xf_out x ++ match r with ChComplete d => [(ck_id req, d)] | _ => [] end), r).

Definition xf_step (id size : nat) (bytes : list Byte) (f : Fault) (x : Xfer) : Xfer :=
  let set_sender v y := mkXfer v (xf_recv y) (xf_sent y) (xf_out y) in
  let send off y := mkXfer (xf_sender y) (xf_recv y) (xf_sent y ++ [chunk_at id size bytes off]) (xf_out y) in
  match f with
  | FRestart => mkXfer (xf_sender x) None (xf_sent x) (xf_out x)
  | FSenderRestart => set_sender (Sending 0) x
  | FHigherVote => set_sender Stopped x
  | FOther req => (xf_deliver req x).1
  | FDelayed i => match xf_sent x !! i with Some req => (xf_deliver req x).1 | None => x end
  | FLost => match xf_sender x with Sending off => send off x | _ => x end
  | FReplyLost =>
      match xf_sender x with
      | Sending off => (xf_deliver (chunk_at id size bytes off) (send off x)).1
      | _ => x
      end
  | FReplied =>
      match xf_sender x with
      | Sending off =>
          let '(y, r) := xf_deliver (chunk_at id size bytes off) (send off x) in
          set_sender (sender_next id size bytes off (Some r)) y
      | _ => x
      end
  end.

Definition xf_run (id size : nat) (bytes : list Byte) (fs : list Fault) (x : Xfer) : Xfer :=
  foldl (fun y f => xf_step id size bytes f y) x fs.
(** the receiver may be in the middle of receiving some other snapshot *)
Definition xf_start (r : option Streaming) : Xfer := mkXfer (Sending 0) r [] [].
