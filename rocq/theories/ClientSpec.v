(** Vocabulary of the properties of client requests (C26). *)
From Verif Require Import Types LogIdList Membership RaftState ProgressEntry Engine Store RaftCore NodeSpec LogSpec.
From stdpp Require Import base numbers option gmap list.

(** the channel on which a client waits for the answer to its request *)
Definition client_tx (m : Msg) : option nat :=
  match m with MWrite _ tx | MChange _ _ tx | MRead tx => Some tx | _ => None end.
Definition act_tx (a : Action) : list nat :=
  match a with Act _ (EMsg m) => option_list (client_tx m) | _ => [] end.
(** the channels of all requests of a run, and those of all answers *)
Definition asked (acts : list Action) : list nat := flat_map act_tx acts.
Definition out_tx (o : Out) : list nat := match o with OClient tx _ => [tx] | _ => [] end.
Definition answered (outs : list Out) : list nat := flat_map out_tx outs.

(** the payload a request on channel [tx] asks a node to write *)
Definition asks (m : Msg) (n : Node) (tx : nat) (p : Payload) : Prop :=
  (exists d, m = MWrite d tx /\ p = PNormal d) \/
  (exists ch rt mb, m = MChange ch rt tx /\ ms_change (rs_mem (nd_state n)) ch rt = inl mb /\ p = PMembership mb).
(** in the run [acts] from [n0], and since the last crash in it, a request on channel [tx]
    made the node, as leader, append the entry [e] to the end of its log *)
Definition proposed (acts : list Action) (n0 : Node) (tx : nat) (e : Entry) : Prop :=
  exists acts1 now m acts2 n1 o1 n2 o2,
    acts = acts1 ++ Act now (EMsg m) :: acts2 /\ (forall a, a ∈ acts2 -> match a with Crash _ _ _ _ => False | _ => True end) /\
    node_run acts1 n0 = Ok (n1, o1) /\ node_step now (EMsg m) n1 = Ok (n2, o2) /\
    asks m n1 tx (e_payload e) /\ en_leader (nd_eng n1) <> None /\
    (exists v, AppendInputEntries v [e] ∈ step_produced (EMsg m) n1 n2) /\
    e_index e = next_index (rs_last (nd_state n1)) /\ rs_last (nd_state n2) = Some (e_log_id e).
