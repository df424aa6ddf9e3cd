(** A linearizable read that has waited sees everything committed before it began (C27). *)
From Coq Require Import Bool Lia ZifyBool ZifyNat.
From stdpp Require Import base numbers option gmap relations sorting list.
From Verif Require Import Types TypesProofs LogIdList Quorum QuorumSpec QuorumProofs Membership Progress RaftState ProgressEntry Engine Store RaftCore
  EnginePrims NodeSpec NodePrims VoteNodeProofs ElectProofs KindProofs LogSpec LogProofs EngLogProofs WalkProofs NodeLogProofs
  StepLogProofs LogPropSpec RoleSpec RoleProofs LogStateProofs LeadProofs OwnProofs MemSpec MemLogProofs MemProofs ProtoProofs Cluster ClusterSpec
  ClNodeProofs ClLogProofs ClVoteProofs ClCoreProofs ClStepProofs ClGrowProofs ClItemProofs ClusterProofs ReadSpec ReadProofs TransferProofs ReadLeadProofs
  NoopProofs Metrics MetricsProofs.
From Verif Require ClientProofs.
Import NodeSpec.

(** the state machine of a node only grows *)
Lemma run_sm m0 cfg w cl cl' i : clinv m0 cfg w cl -> plain_run m0 cl cl' -> sm_entries (nd_sm (cl_node cl i)) `prefix_of` sm_entries (nd_sm (cl_node cl' i)).
Proof.
  intros I Hr. induction Hr as [|a c c' Hr IH Ha Hp]; [reflexivity|]. etrans; [exact IH|]. clear IH.
  destruct (plain_clinv _ _ _ _ _ I Hr) as (w1 & I1 & _).
  destruct (act_step _ _ _ _ Ha Hp) as (j & now & ev & n' & outs & He & Hs & ->). cbn. destruct (decide (i = j)) as [->|]; [|reflexivity].
  assert (Hd : ev = ESm \/ ev <> ESm) by (destruct ev; (left; reflexivity) || (right; discriminate)).
  destruct Hd as [->|Hev]; [|rewrite (proj1 (step_sm _ _ _ _ _ Hs Hev)); reflexivity].
  assert (Hfs : fits_step (wd_env w1) (cfg j) now ESm (cl_node c j) n' outs).
  { split; [apply (ci_core _ _ _ _ I1 j)|]. split; [exact Hs|]. split; [exact Logic.I|].
    intros v es Hin. exfalso. cbn [step_produced] in Hin. cbn [node_step] in Hs. rok Hs. injection Hs as -> _.
    assert (E : en_out (nd_eng n') = en_out (nd_eng (cl_node c j))).
    { unfold sm_step in Hx. repeat match type of Hx with context [match ?t with _ => _ end] => destruct t; try discriminate Hx end; injection Hx as <-; reflexivity. }
    rewrite E, drop_all in Hin. apply elem_of_nil in Hin as []. }
  destruct (sm_grows (wd_env w1) (cfg j) (wk_env _ _ (ci_world _ _ _ _ I1)) _ _ _ _ _ Hfs) as (es & -> & _). by exists es.
Qed.

(** an entry committed when a read begins is not after the read log id by index either *)
Lemma read_index m0 cfg i tx cl rl ap j e : read_answered m0 cfg i tx cl rl ap -> has_committed (cl_node cl j) e -> e_index e < next_index rl.
Proof.
  intros Hra He. destruct (linearizable _ _ _ _ _ _ _ Hra) as (l0 & Hl0 & _ & _ & _ & Hle). specialize (Hle j e He).
  destruct (read_quorum _ _ _ _ _ _ _ Hra) as (l & Hl & Hresp & G & HG1 & HG2 & HG3). assert (l0 = l) as -> by congruence. clear Hl0. injection Hresp as -> ->.
  destruct Hra as (cl0 & before & acts & lst & clr & H0 & Hb & _). apply acts_run in Hb.
  assert (Hmem : m_configs (em_mem (rs_eff (nd_state (cl_node cl i)))) = [dom m0]).
  { destruct (run_lconf _ _ _ _ H0 Hb) as (w1 & I1 & Hc). destruct (it_mem _ _ _ _ _ _ (ci_item _ _ _ _ I1 i)) as [E|E]; [|exact E]. exfalso. apply (Hc i); [left; congruence|exact E]. }
  rewrite Hmem in HG2. apply joint_is_quorum_spec in HG2; [|exact HG1].
  destruct (NoopProofs.run_noop _ _ _ _ H0 Hb) as (w & I & N). destruct (N i l Hl) as [_ N2]. cbv zeta in N2.
  destruct (leader_facts _ _ _ _ _ _ I Hl) as (F1 & F2 & F3 & F4). pose proof (ci_world _ _ _ _ I) as W. pose proof (proj1 (wk_env _ _ W)) as Hok.
  set (tip := wtip w (v_leader (ld_vote l))) in *.
  assert (Hcom : pfx (wh w) (rs_committed (nd_state (cl_node cl i))) tip).
  { rewrite F2. pose proof (node_ec (wd_env w) i _ (f_ninv _ _ _ _ I i)) as C. apply C. }
  assert (Hrl : pfx (wh w) (lh_read_log_id l (nd_eng (cl_node cl i))) tip) by (unfold lh_read_log_id, ologid_max; destruct (ologid_ltb _ _); assumption).
  destruct (com_later _ _ _ _ _ _ _ I (wlater_refl w) He) as (L & z & C1 & P1 & _).
  assert (Het : pfx (wh w) (Some (e_log_id e)) tip).
  { eapply pfx_trans; [exact P1|]. apply (leader_has [dom m0] ltac:(discriminate) w W L); [exact F1|exact C1|].
    destruct (wk_com _ _ W _ _ C1) as (_ & _ & _ & A & QA & HA).
    destruct (quorum_intersect_same [dom m0] A (list_to_set G) ltac:(discriminate) QA HG2) as (t & c & _ & _ & T1 & T2). apply elem_of_list_to_set in T2.
    destruct (c_ack _ _ _ _ _ (f_core _ _ _ _ I t) _ _ (HA t T1)) as [Hv1 _].
    pose proof (vle_trans _ _ _ Hv1 (HG3 t T2)) as Hv2. rewrite F3. apply vle_leader in Hv2. exact Hv2. }
  pose proof (pfx_of_leb (wh w) Hok _ _ _ Het Hrl Hle) as Hp. apply (pfx_idx (wh w) Hok) in Hp. cbn in Hp. unfold e_index. lia.
Qed.

Theorem read_done m0 cfg i tx cl rl ap cl' : read_answered m0 cfg i tx cl rl ap -> plain_run m0 cl cl' ->
  read_ready rl ap (node_metrics (cl_node cl' i)) = true ->
  forall j e, has_committed (cl_node cl j) e -> e ∈ sm_entries (nd_sm (cl_node cl' i)).
Proof.
  intros Hra Hr Hready j e He. pose proof (read_index _ _ _ _ _ _ _ _ _ Hra He) as Hix.
  destruct (read_quorum _ _ _ _ _ _ _ Hra) as (l & Hl & Hresp & _). injection Hresp as _ Hap.
  pose proof Hra as (cl0 & before & acts & lst & clr & H0 & Hb & _). apply acts_run in Hb.
  assert (Hreach : plain_reachable m0 cfg cl) by (exists cl0; auto). destruct (plain_inv _ _ _ Hreach) as (w & I). destruct (plain_clinv _ _ _ _ _ I Hr) as (w' & I' & Hlt).
  assert (Happ : forall w c, clinv m0 cfg w c -> ologid_leb (io_applied (rs_io (nd_state (cl_node c i)))) (sm_applied (nd_sm (cl_node c i))) = true /\
    next_index (io_applied (rs_io (nd_state (cl_node c i)))) <= length (sm_entries (nd_sm (cl_node c i)))).
  { clear. intros w c I. pose proof (wk_env _ _ (ci_world _ _ _ _ I)) as HE.
    destruct (reach_ai (wd_env w) i HE (cfg i) _ (nc_fits _ _ _ (ci_core _ _ _ _ I i)) (ci_cfg _ _ _ _ I i)) as [A _].
    destruct (f_ninv _ _ _ _ I i) as (w0 & pcs & wv & D & N). destruct (n_sm _ _ _ _ _ _ _ N) as [S1 S2 _ _].
    apply rises_pfx in A. split; [apply (pfx_le _ (proj1 HE)), A|]. apply (pfx_idx _ (proj1 HE)) in A.
    rewrite S2, (chain_length _ (proj1 HE) _ _ S1) in A. cbn in A. lia. }
  assert (Hlen : next_index rl <= length (sm_entries (nd_sm (cl_node cl' i)))).
  { apply orb_prop in Hready as [Hready|Hready].
    - destruct (Happ _ _ I) as [_ Hn]. pose proof (prefix_length _ _ (run_sm _ _ _ _ _ i I Hr)) as Hpl.
      assert (next_index rl <= next_index ap) by (destruct rl, ap; cbn in *; try discriminate; lia). rewrite Hap in H. unfold nd_state in *. lia.
    - destruct (Happ _ _ I') as [_ Hn]. cbn [metric_ge node_metrics mt_applied] in Hready.
      assert (next_index rl <= next_index (io_applied (rs_io (nd_state (cl_node cl' i))))) by (destruct rl, (io_applied _); cbn in *; try discriminate; lia). lia. }
  destruct (lookup_lt_is_Some_2 (sm_entries (nd_sm (cl_node cl' i))) (e_index e)) as [y Hy]; [lia|].
  assert (Hye : e_index y = e_index e).
  { destruct (f_ninv _ _ _ _ I' i) as (w0 & pcs & wv & D & N). destruct (n_sm _ _ _ _ _ _ _ N) as [S1 S2 _ _].
    apply (chain_index _ (proj1 (wk_env _ _ (ci_world _ _ _ _ I'))) _ _ _ _ S1 Hy). }
  apply elem_of_list_lookup_2 in Hy. replace e with y; [exact Hy|]. symmetry.
  eapply cluster_agree; [exact Hreach|exact Hr|exact He|right; exact Hy|congruence].
Qed.

(** an acknowledged write is applied by the node that acknowledges it *)
Lemma acknowledged m0 cfg w c a c' k tx l p : clinv m0 cfg w c -> gives k c a tx (CWriteOk l p) -> cl_act a c = Ok c' -> plain_act m0 c a c' ->
  mkEntry l p ∈ sm_entries (nd_sm (cl_node c' k)).
Proof.
  intros I (now & ev & n' & outs & He & Hs & Hin) Ha Hp. destruct (act_step _ _ _ _ Ha Hp) as (k' & now' & ev' & n1 & outs1 & He' & Hs' & ->).
  assert ((k', now', ev') = (k, now, ev)) as [= -> -> ->] by congruence. assert ((n1, outs1) = (n', outs)) as [= -> ->] by congruence.
  cbn. rewrite decide_True by reflexivity. pose proof (wk_env _ _ (ci_world _ _ _ _ I)) as HE.
  destruct (nc_fits _ _ _ (ci_core _ _ _ _ I k)) as (now0 & n0 & acts & o & Hf & Hrf & Hr).
  destruct (ClientProofs.success_own (wd_env w) k HE now0 (cfg k) n0 acts _ o now ev n' outs tx l p Hf (ci_cfg _ _ _ _ I k) Hrf Hr Hs Hin) as (e & _ & <- & <- & Hsm & _).
  destruct e. exact Hsm.
Qed.
Theorem write_then_read m0 cfg c a c' k txw l p i tx cl rl ap cl' :
  plain_reachable m0 cfg c -> gives k c a txw (CWriteOk l p) -> cl_act a c = Ok c' -> plain_act m0 c a c' -> plain_run m0 c' cl ->
  read_answered m0 cfg i tx cl rl ap -> plain_run m0 cl cl' -> read_ready rl ap (node_metrics (cl_node cl' i)) = true ->
  mkEntry l p ∈ sm_entries (nd_sm (cl_node cl' i)).
Proof.
  intros Hc Hg Ha Hp Hr Hra Hr' Hready. eapply read_done; [exact Hra|exact Hr'|exact Hready|]. right.
  destruct (plain_inv _ _ _ Hc) as (w & I). pose proof (acknowledged _ _ _ _ _ _ _ _ _ _ I Hg Ha Hp) as Hin.
  destruct (clinv_step _ _ _ _ _ _ I Ha Hp) as (j & w' & _ & I'). destruct (run_sm _ _ _ _ _ k I' Hr) as [es ->]. apply elem_of_app. left. exact Hin.
Qed.
Theorem acknowledged_kept m0 cfg c a c' k tx l p cl :
  plain_reachable m0 cfg c -> gives k c a tx (CWriteOk l p) -> cl_act a c = Ok c' -> plain_act m0 c a c' -> plain_run m0 c' cl ->
  mkEntry l p ∈ sm_entries (nd_sm (cl_node cl k)) /\
  (forall j e, has_committed (cl_node cl j) e -> e_index e = lid_index l -> e = mkEntry l p) /\
  (forall j ld, en_leader (nd_eng (cl_node cl j)) = Some ld -> vote_le (rs_v (nd_state (cl_node c' k))) (ld_vote ld) ->
     holds_entry (planned_log (cl_node cl j)) (mkEntry l p)).
Proof.
  intros Hc Hg Ha Hp Hr. destruct (plain_inv _ _ _ Hc) as (w & I). pose proof (acknowledged _ _ _ _ _ _ _ _ _ _ I Hg Ha Hp) as Hin.
  destruct (clinv_step _ _ _ _ _ _ I Ha Hp) as (j0 & w' & _ & I').
  assert (Hc' : plain_reachable m0 cfg c') by (destruct Hc as (cl0 & H0 & Hr0); exists cl0; split; [exact H0|]; eapply plr_step; eauto).
  split; [destruct (run_sm _ _ _ _ _ k I' Hr) as [es ->]; apply elem_of_app; left; exact Hin|]. split.
  - intros j e He Hi. symmetry. eapply cluster_agree; [exact Hc'|exact Hr|right; exact Hin|exact He|]. symmetry. exact Hi.
  - intros j ld Hl Hv. eapply cluster_complete; [exact Hc'|exact Hr|right; exact Hin|exact Hl|exact Hv].
Qed.
