(** A leader that proposes two membership changes one after the other. *)
From stdpp Require Import base numbers option gmap list.
From Verif Require Import Types LogIdList Membership Progress RaftState ProgressEntry Engine Store RaftCore NodeSpec NodeExamples
  LogSpec LogPropSpec LogExamples RoleSpec RoleExamples MemSpec MemProofs.

Definition is_leaderb (n : Node) : bool := match en_leader (nd_eng n) with Some _ => true | None => false end.
Lemma is_leaderb_ok n : is_leaderb n = true -> en_leader (nd_eng n) <> None.
Proof. unfold is_leaderb. destruct (en_leader (nd_eng n)); done. Qed.
(** the node leads all through this run *)
Fixpoint fx_leads (E : Env) (acts : list Action) (n : Node) : bool :=
  match acts with
  | [] => true
  | Act now ev :: r =>
      match node_step now ev n with
      | Ok x => act_fitsb E (Act now ev) n x.1 && is_leaderb x.1 && fx_leads E r x.1
      | Panic => false
      end
  | _ => false
  end.
Lemma fx_leads_ok E cfg m acts : forall n n' o, fits_reachable E cfg n -> leads_on E cfg m n -> fx_leads E acts n = true ->
  node_run acts n = Ok (n', o) -> leads_on E cfg m n' /\ fits_reachable E cfg n'.
Proof.
  induction acts as [|a r IH]; intros n n' o Hr Hon Hb He; cbn [fx_leads node_run] in *; [injection He as <- _; auto|].
  destruct a as [now ev|]; [|discriminate]. cbn [node_act] in He. destruct (node_step now ev n) as [[x ox]|] eqn:Hs; [|discriminate]. cbn [fst] in Hb.
  apply andb_true_iff in Hb as [Hb Hb3]. apply andb_true_iff in Hb as [Hb1 Hb2]. apply act_fitsb_ok in Hb1.
  cbn in He. destruct (node_run r x) as [[y oy]|] eqn:Hy; [|discriminate]. cbn in He. injection He as <- _.
  eapply (IH x y oy); [eapply (fits_reachable_step E cfg (Act now ev)); [exact Hr|exact Hs|exact Hb1]| |exact Hb3|exact Hy].
  destruct Hb1 as [B1 B2]. econstructor; [exact Hon|split; [exact Hr|split; [exact Hs|split; [exact B1|exact B2]]]|by apply is_leaderb_ok].
Qed.

(** after [acts] from a fresh start: [ev1], then [mid] while leading, then [ev2] *)
Definition fx_check (E : Env) (cfg : EngineConfig) (acts : list Action) (ev1 : Event) (mid : list Action) (ev2 : Event)
    (P : Node -> Node -> Node -> Node -> bool) : bool :=
  match ex_end cfg acts with
  | Ok (n0, _) =>
      match node_step 5 ev1 n0 with
      | Ok (n1, _) =>
          match node_run mid n1 with
          | Ok (n2, _) =>
              match node_step 6 ev2 n2 with
              | Ok (n3, _) => act_fitsb E (Act 5 ev1) n0 n1 && fx_leads E mid n1 && act_fitsb E (Act 6 ev2) n2 n3 &&
                              is_leaderb n0 && is_leaderb n1 && is_leaderb n3 && P n0 n1 n2 n3
              | Panic => false
              end
          | Panic => false
          end
      | Panic => false
      end
  | Panic => false
  end.
Lemma fx_check_ok E cfg acts ev1 mid ev2 P : ex_fits E cfg acts = true -> fx_check E cfg acts ev1 mid ev2 P = true ->
  exists n0 n1 n2 n3 o1 o3, fits_step E cfg 5 ev1 n0 n1 o1 /\ en_leader (nd_eng n0) <> None /\ leads_on E cfg n1 n2 /\
    fits_step E cfg 6 ev2 n2 n3 o3 /\ en_leader (nd_eng n3) <> None /\ P n0 n1 n2 n3 = true.
Proof.
  unfold fx_check. intros Hf Hc. destruct (ex_end cfg acts) as [[n0 o0]|] eqn:H0; [|discriminate].
  destruct (node_step 5 ev1 n0) as [[n1 o1]|] eqn:H1; [|discriminate]. destruct (node_run mid n1) as [[n2 o2]|] eqn:H2; [|discriminate].
  destruct (node_step 6 ev2 n2) as [[n3 o3]|] eqn:H3; [|discriminate]. rewrite !andb_true_iff in Hc. destruct Hc as [[[[[[C1 C2] C3] C4] C5] C6] C7].
  pose proof (ex_step _ _ _ _ _ _ _ _ _ Hf H0 H1 C1) as S1. pose proof S1 as (R0 & _ & F1 & F2).
  assert (R1 : fits_reachable E cfg n1) by (eapply (fits_reachable_step E cfg (Act 5 ev1)); [exact R0|exact H1|apply act_fitsb_ok; exact C1]).
  destruct (fx_leads_ok E cfg n1 mid n1 n2 o2 R1 (lo_here _ _ _ (is_leaderb_ok _ C5)) C2 H2) as [L2 R2].
  exists n0, n1, n2, n3, o1, o3. split; [exact S1|]. split; [by apply is_leaderb_ok|]. split; [exact L2|].
  split; [|split; [by apply is_leaderb_ok|exact C7]]. apply act_fitsb_ok in C3 as [B1 B2]. split; [exact R2|]. split; [exact H3|]. split; [exact B1|exact B2].
Qed.

(** the leader of nodes 1 and 2 with its blank entry committed, and the replication of its
    first change *)
Definition fx_ready : list Action := rm_lead ++ rm_sent 1 2.
Definition fx_mid : list Action := ex_settle 5 ++ rm_sent 2 1 ++ rm_sent 3 1.
Lemma fx_ready_fits : ex_fits rm_env (ex_cfg 1) fx_ready = true.
Proof. vm_compute. reflexivity. Qed.

(** what the same leader goes through while it hands over to node 2 *)
Definition tx_mid : list Action := ex_settle 5 ++
  [Act 6 (ETick 3 true true); Act 60 (ETick 3 true true); Act 60 (EMsg (MVote (mkVoteReq (vote_new 1 2) None) 30))] ++ ex_settle 60.
Definition tx_handing (n0 n1 n2 n3 : Node) : bool :=
  match en_leader (nd_eng n1) with Some l => bool_decide (ld_transfer l = Some 2) | None => false end.
Lemma tx_handing_ok n0 n1 n2 n3 : tx_handing n0 n1 n2 n3 = true -> exists l, en_leader (nd_eng n1) = Some l /\ ld_transfer l = Some 2.
Proof. unfold tx_handing. destruct (en_leader (nd_eng n1)) as [l|]; [|done]. intros H%bool_decide_eq_true. eauto. Qed.
