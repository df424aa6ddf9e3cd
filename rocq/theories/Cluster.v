(** Model of a cluster: nodes that exchange requests and replies over a network which may
    delay, reorder, duplicate and drop them.

    The network is the application's ([network/v2/network.rs:1-140], the trait
    [RaftNetworkV2]); the model assumes only that a request arrives at the node it was
    sent to, and a reply at the task that waits for it.  A node does not send to itself
    over the network ([raft_core.rs:1076, 1132], [engine/handler/replication_handler/mod.rs]). *)
From Verif Require Import Types LogIdList Membership RaftState ProgressEntry Engine Store RaftCore NodeSpec.
From stdpp Require Import base numbers option gmap list.

Record Packet := mkPacket { pk_from : nat; pk_to : nat; pk_tag : Tag; pk_rpc : Rpc }.

(** all nodes, every request sent so far, every reply given so far: the node that
    replied, the number of the request in [cl_sent], and the reply *)
Record Cluster := mkCluster {
  cl_node : nat -> Node;
  cl_sent : list Packet;
  cl_replied : list (nat * nat * Resp);
}.

(** the message a request becomes at its destination; the reply goes back to request [k] *)
Definition rpc_msg (k : nat) (r : Rpc) : Msg :=
  match r with
  | RpcAppend v prev es c => MAppend v prev es c k
  | RpcVote req => MVote req k
  | RpcSnapshot v sn => MSnapshot v sn k
  | RpcTransfer req => MTransfer req
  end.
(** events that do not come from the network: everything but requests and replies *)
Definition local_event (sent : nat) (ev : Event) : bool :=
  match ev with
  | EMsg (MAppend _ _ _ _ _) | EMsg (MVote _ _) | EMsg (MSnapshot _ _ _) | EMsg (MTransfer _) => false
  | EReply _ _ => false
  | EStreamSend _ _ rid => rid =? sent     (* the number its request will get *)
  | _ => true
  end.

(** what may happen next *)
Inductive CAct :=
| CLocal (i now : nat) (ev : Event)
| CRequest (k now : nat)              (* request number [k] arrives *)
| CReply (m now : nat)                (* reply number [m] arrives *)
| CCrash (i now k j keep : nat).      (* node [i] crashes and starts again *)

Definition out_packet (i : nat) (o : Out) : option Packet :=
  match o with OSend t tag r => Some (mkPacket i t tag r) | _ => None end.
Definition out_reply (i : nat) (o : Out) : option (nat * nat * Resp) :=
  match o with OReply tx r => Some (i, tx, r) | _ => None end.
Definition cl_set (i : nat) (n : Node) (outs : list Out) (cl : Cluster) : Cluster :=
  mkCluster (fun j => if decide (j = i) then n else cl_node cl j)
    (cl_sent cl ++ omap (out_packet i) outs) (cl_replied cl ++ omap (out_reply i) outs).
Definition cl_step (i now : nat) (ev : Event) (cl : Cluster) : res Cluster :=
  let! x := node_step now ev (cl_node cl i) in Ok (cl_set i x.1 x.2 cl).

(** the node and event of an action, if it can happen *)
Definition cl_event (a : CAct) (cl : Cluster) : option (nat * nat * Event) :=
  match a with
  | CLocal i now ev => if local_event (length (cl_sent cl)) ev then Some (i, now, ev) else None
  | CRequest k now =>
      match cl_sent cl !! k with
      | Some p => if pk_from p =? pk_to p then None else Some (pk_to p, now, EMsg (rpc_msg k (pk_rpc p)))
      | None => None
      end
  | CReply m now =>
      match cl_replied cl !! m with
      | Some (j, k, r) =>
          match cl_sent cl !! k with
          | Some p => if pk_to p =? j then Some (pk_from p, now, EReply (pk_tag p) r) else None
          | None => None
          end
      | None => None
      end
  | CCrash _ _ _ _ _ => None
  end.
Definition cl_act (a : CAct) (cl : Cluster) : res Cluster :=
  match a with
  | CCrash i now k j keep => let! n := node_restart now k j keep (cl_node cl i) in Ok (cl_set i n [] cl)
  | _ => match cl_event a cl with
         | Some (i, now, ev) => cl_step i now ev cl
         | None => Panic
         end
  end.
Fixpoint cl_run (acts : list CAct) (cl : Cluster) : res Cluster :=
  match acts with
  | [] => Ok cl
  | a :: r => let! cl' := cl_act a cl in cl_run r cl'
  end.
(** every node starts on empty storage, under its own id *)
Definition cl_start (cfg : nat -> EngineConfig) (cl : Cluster) : Prop :=
  cl_sent cl = [] /\ cl_replied cl = [] /\
  forall i, ec_id (cfg i) = i /\ exists now, node_fresh now (cfg i) = Ok (cl_node cl i).
