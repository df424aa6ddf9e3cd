(** Vocabulary of the read property. *)
From Verif Require Import Types LogIdList Quorum QuorumSpec Membership Progress RaftState ProgressEntry Engine Store RaftCore NodeSpec
  LogSpec Cluster ClusterSpec.
From stdpp Require Import base numbers option gmap list.

(** a run whose steps obey the restrictions of [ClusterSpec], with its actions *)
Inductive plain_acts (m0 : gmap nat nat) (cl0 : Cluster) : list CAct -> Cluster -> Prop :=
| pla_nil : plain_acts m0 cl0 [] cl0
| pla_snoc acts a cl cl' : plain_acts m0 cl0 acts cl -> cl_act a cl = Ok cl' -> plain_act m0 cl a cl' -> plain_acts m0 cl0 (acts ++ [a]) cl'.

(** a client asks node [i] for a linearizable read; [tx] is its reply channel *)
Definition asks_read (i tx : nat) (a : CAct) : Prop := exists now, a = CLocal i now (EMsg (MRead tx)).
(** action [a] makes node [i] give the client of channel [tx] this answer *)
Definition gives (i : nat) (cl : Cluster) (a : CAct) (tx : nat) (r : ClientResp) : Prop :=
  exists now ev n' outs, cl_event a cl = Some (i, now, ev) /\ node_step now ev (cl_node cl i) = Ok (n', outs) /\ OClient tx r ∈ outs.

(** a read of node [i] that begins in [cl] and is answered positively with [rl] and [ap]
    by the last of the [acts] that follow, no other request using its reply channel *)
Definition read_answered (m0 : gmap nat nat) (cfg : nat -> EngineConfig) (i tx : nat) (cl : Cluster) (rl ap : option LogId) : Prop :=
  exists cl0 before acts last clr,
    cl_start cfg cl0 /\ plain_acts m0 cl0 before cl /\ (forall a, a ∈ before -> ~ asks_read i tx a) /\
    plain_acts m0 cl acts clr /\
    (exists a rest, acts ++ [last] = a :: rest /\ asks_read i tx a /\ forall b, b ∈ rest -> ~ asks_read i tx b) /\
    gives i clr last tx (CReadOk rl ap).
