(** Independent specification of the vote orders. *)
From Verif Require Import Types.
From stdpp Require Import base numbers list.

(** Default mode: (term, node, committed) compared lexicographically. *)
Definition vote_le (a b : Vote) : Prop :=
  li_term (v_leader a) < li_term (v_leader b) \/
  (li_term (v_leader a) = li_term (v_leader b) /\
   (li_node (v_leader a) < li_node (v_leader b) \/
    (li_node (v_leader a) = li_node (v_leader b) /\
     (v_committed a = true -> v_committed b = true)))).

(** [single-term-leader] mode: no two different nodes hold a committed vote of the
    same term. *)
Definition no_split (votes : list StdVote) : Prop :=
  forall a b n m, a ∈ votes -> b ∈ votes ->
    sv_committed a = true -> sv_committed b = true ->
    sl_term (sv_leader a) = sl_term (sv_leader b) ->
    sl_voted (sv_leader a) = Some n -> sl_voted (sv_leader b) = Some m -> n = m.

Definition std_ge (a b : StdVote) : Prop := std_vote_geb a b = true.

(** A voter in this mode, seeing any sequence of votes from candidates (uncommitted) and
    leaders (committed): it adopts what is not less than its vote
    ([update_vote], [vote_handler/mod.rs:101-138]).  The result lists what it adopted. *)
Fixpoint std_adopted (v : StdVote) (reqs : list StdVote) : list StdVote :=
  match reqs with
  | [] => []
  | r :: rs => if std_vote_geb r v then r :: std_adopted r rs else std_adopted v rs
  end.
