(** Calls of the public interface (C44). *)
From stdpp Require Import base numbers option gmap list.
From Verif Require Import Types LogIdList Membership QuorumSpec QuorumProofs Api ApiSpec ApiProofs.

(** ** C44 *)

(** A call to change the voters, with no other change of the voters between its two
    requests (requests about nodes only and refused ones do not matter), either ends with
    exactly the requested voters as the only group, or with the error of its first request.
    Missing: changes of the voters by other clients in between, where it is false, see
    [C44_change_call_refuted]. *)
Theorem C44_change_call_partial : forall m ch rt g bs, valid_membership m -> requested m ch = Some g ->
  (forall m1, m_change m ch rt = inl m1 -> keeps_voters m1 bs) ->
  match change_call ch rt m bs with
  | inl m' => m_configs m' = [g]
  | inr e => m_change m ch rt = inr e
  end.
Proof. exact change_call_alone. Qed.
Print Assumptions C44_change_call_partial.

(** Whatever other clients request in between, a call to replace the voters that succeeds
    ends in a valid membership of one or two groups of which the last is the requested one. *)
Theorem C44_requested_group_is_last : forall ids rt m bs m', change_call (ReplaceAllVoters ids) rt m bs = inl m' ->
  valid_membership m' /\ last_group m' = ids /\ (m_configs m' = [ids] \/ exists c, m_configs m' = [c; ids]).
Proof. exact change_call_last. Qed.
Print Assumptions C44_requested_group_is_last.

(** But success does not mean that the change is complete (finding F19): two clients call at
    the same time.  The first request of [a] is handled, then the first of [b], the second
    of [a] and the second of [b]: the call of [b] succeeds and leaves two voter groups. *)
Theorem C44_change_call_refuted : exists m a b rt m', valid_membership m /\ length (m_configs m) = 1 /\
  change_call b rt (after_request m (a, rt)) [(a, rt)] = inl m' /\ length (m_configs m') = 2.
Proof. exact change_call_joint. Qed.
Print Assumptions C44_change_call_refuted.

(** {1,2,3} are replaced by {3,4,5} in two steps; node 9 is not known. *)
Example C44_ex : valid_membership call_m /\ requested call_m (ReplaceAllVoters {[3; 4; 5]}) = Some {[3; 4; 5]} /\
  (exists m1 m2, m_change call_m (ReplaceAllVoters {[3; 4; 5]}) false = inl m1 /\ length (m_configs m1) = 2 /\
     change_call (ReplaceAllVoters {[3; 4; 5]}) false call_m [] = inl m2) /\
  change_call (AddVoterIds {[4; 9]}) true call_m [] = inr (ELearnerNotFound 9) /\
  exists m3, change_call (ReplaceAllVoters {[1; 2; 5]}) true call_m [(AddNodes {[6 := 16]}, true)] = inl m3.
Proof.
  split; [apply ensure_valid_spec; vm_compute; reflexivity|]. split; [reflexivity|].
  split; [eexists _, _; split; [vm_compute; reflexivity|]; split; [reflexivity|vm_compute; reflexivity]|].
  split; [vm_compute; reflexivity|]. eexists. vm_compute. reflexivity.
Qed.
(** between the two requests a node is added, and another client's request for the unknown
    node 9 is refused *)
Example C44_ex_between : exists m1, m_change call_m (ReplaceAllVoters {[3; 4; 5]}) false = inl m1 /\
  keeps_voters m1 [(AddNodes {[6 := 16]}, true); (AddVoterIds {[9]}, true)] /\
  exists m2, change_call (ReplaceAllVoters {[3; 4; 5]}) false call_m [(AddNodes {[6 := 16]}, true); (AddVoterIds {[9]}, true)] = inl m2.
Proof.
  eexists. split; [vm_compute; reflexivity|]. split; [|eexists; vm_compute; reflexivity].
  split; [left; reflexivity|]. split; [right; eexists; vm_compute; reflexivity|exact I].
Qed.
