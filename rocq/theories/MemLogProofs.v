(** The memberships of a history, and what queued commands do to a node's idea of them. *)
From Coq Require Import Bool Lia ZifyBool ZifyNat.
From stdpp Require Import base numbers option gmap relations list.
From Verif Require Import Types TypesProofs LogIdList Membership Progress RaftState ProgressEntry Engine Store RaftCore EnginePrims NodeSpec
  KindProofs LogSpec LogProofs EngLogProofs WalkProofs NodeLogProofs MemSpec.

Section pm.
  Context (H : Hist) (Hok : hist_ok H).

  Lemma pfx_chain q p : pfx H q p -> exists es, chain H q es /\ es_last q es = p.
  Proof.
    induction 1 as [x|a y p pl Hy Hp (es & Hc & He)]; [exists []; done|].
    exists (es ++ [mkEntry y pl]). rewrite es_last_app, He. split; [|done].
    apply chain_app. split; [done|]. rewrite He. cbn. auto.
  Qed.
  Lemma pm_ex p : pfx H None p -> exists m, path_mem H p m.
  Proof. intros (es & Hc & He)%pfx_chain. exists (mem_of es), es. auto. Qed.
  Lemma pm_fun p a b : path_mem H p a -> path_mem H p b -> a = b.
  Proof using Hok. intros (x & X1 & X2 & <-) (y & Y1 & Y2 & <-). f_equal. eapply (chain_unique H Hok); [exact X1|exact Y1|congruence]. Qed.
  Lemma pm_root p m : path_mem H p m -> pfx H None p.
  Proof. intros (es & Hc & He & _). rewrite <- He. by apply chain_pfx. Qed.
  Lemma mem_of_app a b : mem_of (a ++ b) = default (mem_of a) (last (memberships_in b)).
  Proof. unfold mem_of. rewrite memberships_in_app. destruct (memberships_in b) as [|x r] eqn:E using rev_ind; [by rewrite app_nil_r|].
    rewrite app_assoc, !last_snoc. done. Qed.
  Lemma pm_app p m es : path_mem H p m -> chain H p es -> path_mem H (es_last p es) (default m (last (memberships_in es))).
  Proof.
    intros (x & X1 & <- & <-) Hc. exists (x ++ es). split; [by apply chain_app|]. split; [apply es_last_app|apply mem_of_app].
  Qed.
  Lemma memberships_snoc es e : memberships_in (es ++ [e]) = memberships_in es ++ match e_payload e with PMembership m => [mkEM (Some (e_log_id e)) m] | _ => [] end.
  Proof. rewrite memberships_in_app. f_equal. unfold memberships_in. cbn. destruct (e_payload e); done. Qed.
  Lemma memberships_elem m es : m ∈ memberships_in es <-> exists e, e ∈ es /\ e_payload e = PMembership (em_mem m) /\ em_log_id m = Some (e_log_id e).
  Proof.
    induction es as [|e es IH] using rev_ind; [split; [by intros ?%elem_of_nil|intros (?&?%elem_of_nil&_); done]|].
    rewrite memberships_snoc, elem_of_app, IH. split.
    - intros [(x&?&?&?)|Hm]; [exists x; rewrite elem_of_app; auto|]. exists e. split; [apply elem_of_app; right; by left|].
      destruct (e_payload e); try by apply elem_of_nil in Hm. apply elem_of_list_singleton in Hm as ->. done.
    - intros (x & [Hx|Hx%elem_of_list_singleton]%elem_of_app & Hp & Hl); [left; eauto|subst x]. right. rewrite Hp, <- Hl. apply elem_of_list_singleton. by destruct m.
  Qed.
  (** the last membership of some entries, what is before it, and what follows *)
  Lemma last_mem_split es m : last (memberships_in es) = Some m ->
    exists es1 e es2, es = es1 ++ e :: es2 /\ e_payload e = PMembership (em_mem m) /\ em_log_id m = Some (e_log_id e) /\ memberships_in es2 = [] /\
      memberships_in es = memberships_in es1 ++ [m].
  Proof.
    induction es as [|e es IH] using rev_ind; [done|]. rewrite memberships_snoc. destruct (e_payload e) as [| |m'] eqn:Ep.
    1,2: rewrite app_nil_r; intros (es1&e1&es2&->&P1&P2&P3&P4)%IH; exists es1, e1, (es2 ++ [e]); rewrite <- app_assoc; split_and!; auto;
      rewrite memberships_snoc, P3, Ep; done.
    rewrite last_snoc. intros [= <-]. exists es, e, []. auto.
  Qed.
  Lemma pm_id p m : path_mem H p m -> pfx H (em_log_id m) p.
  Proof using Hok.
    intros (es & Hc & <- & <-). unfold mem_of. destruct (last (memberships_in es)) as [m|] eqn:El; cbn.
    - apply last_mem_split in El as (es1&e&es2&->&_&->&_). apply (chain_elem H Hok) with (e := e) in Hc as (Hx & _); [exact Hx|]. apply elem_of_app; right; by left.
    - by apply chain_pfx.
  Qed.
  Lemma pm_between p q m : path_mem H p m -> pfx H (em_log_id m) q -> pfx H q p -> path_mem H q m.
  Proof using Hok.
    intros Hm Hq Hp. destruct (pm_ex q) as [m' Hm']; [eapply pfx_rooted; [by eapply pm_root|exact Hp]|].
    destruct (pfx_chain _ _ Hp) as (es & Hc & He). pose proof (pm_app _ _ _ Hm' Hc) as Hx. rewrite He in Hx.
    pose proof (pm_fun _ _ _ Hm Hx) as ->. destruct (last (memberships_in es)) as [m2|] eqn:El; cbn in *; [|exact Hm'].
    exfalso. apply last_mem_split in El as (es1&e&es2&->&_&E2&_). rewrite E2 in Hq.
    pose proof (pfx_idx H Hok _ _ Hq) as Hi. assert (Hi2 := chain_index H Hok q (es1 ++ e :: es2) (length es1) e Hc).
    rewrite list_lookup_middle in Hi2 by done. specialize (Hi2 eq_refl). unfold e_index in *. cbn in Hi. lia.
  Qed.
  Lemma pm_le p q m m' : path_mem H p m -> path_mem H q m' -> pfx H q p -> pfx H (em_log_id m') (em_log_id m).
  Proof using Hok.
    intros Hm Hm' Hp. destruct (pfx_linear H (em_log_id m) q p) as [L|L]; [by apply pm_id|done| |].
    - rewrite (pm_fun _ _ _ (pm_between _ _ _ Hm L Hp) Hm'). constructor.
    - eapply pfx_trans; [by apply pm_id|exact L].
  Qed.
  Lemma jb_pfx m p q : just_before H m p -> path_mem H q m -> pfx H p q /\ p <> em_log_id m /\ pfx H p (em_log_id m) /\ next_index (em_log_id m) = S (next_index p).
  Proof using Hok.
    intros (y & Hy & Hh) Hm. assert (P : pfx H p (em_log_id m)) by (rewrite Hy; eapply pfx_step; [exact Hh|constructor]).
    destruct (Hok _ _ _ Hh) as [Hi _]. rewrite Hy. cbn. split; [eapply pfx_trans; [exact P|by apply pm_id]|].
    split; [intros ->; cbn in *; lia|]. split; [by rewrite <- Hy|lia].
  Qed.
End pm.

(** ** What a command means for the memberships *)
Definition mem_cmd (ms : MemState) (c : Command) : MemState :=
  match c with
  | AppendInputEntries _ es => foldl ms_append ms (last_two_memberships es)
  | TruncateLog x => ms_truncate ms (lid_index x)
  | CmdApply _ upto => ms_commit ms (Some upto)
  | InstallSnapshot sn _ => ms_update_committed ms (sm_mem (sn_meta sn))
  | _ => ms
  end.
Definition memrun (e e' : Engine) : Prop :=
  exists cs, en_out e' = en_out e ++ cs /\ rs_mem (en_state e') = foldl mem_cmd (rs_mem (en_state e)) cs.
Lemma memrun_trans a b c : memrun a b -> memrun b c -> memrun a c.
Proof. intros (c1 & H1 & H2) (c2 & H3 & H4). exists (c1 ++ c2). rewrite H3, H1, app_assoc, foldl_app, <- H2. auto. Qed.
Lemma memrun_one c e e' : en_out e' = en_out e ++ [c] -> rs_mem (en_state e') = mem_cmd (rs_mem (en_state e)) c -> memrun e e'.
Proof. intros H1 H2. exists [c]. auto. Qed.
Lemma memrun_none e e' : en_out e' = en_out e -> rs_mem (en_state e') = rs_mem (en_state e) -> memrun e e'.
Proof. intros H1 H2. exists []. rewrite app_nil_r. auto. Qed.
Lemma memrun_truncate since e : memrun e (fh_truncate since e).
Proof.
  rewrite fh_truncate_eq. destruct (rs_get_log_id (en_state e) since) as [lid|] eqn:Hg; [|by apply memrun_none].
  apply (memrun_one (TruncateLog lid)); [done|]. pose proof (lil_get_index _ _ _ Hg) as Hi.
  cbn [mem_cmd]. rewrite Hi. unfold ms_truncate. unpush. unfold rs_eff. cbn [rs_mem set_log_ids].
  destruct (onat_leb _ _) eqn:Ho; cbn; done.
Qed.

Lemma last_two_cases es :
  (memberships_in es = [] /\ last_two_memberships es = []) \/
  (exists m, memberships_in es = [m] /\ last_two_memberships es = [m]) \/
  (exists l m1 m2, memberships_in es = l ++ [m1; m2] /\ last_two_memberships es = [m1; m2]).
Proof.
  unfold last_two_memberships, memberships_in. destruct (memberships_rev (rev es)) as [|b [|a r]]; cbn; auto.
  - right; left. eauto.
  - right; right. exists (rev r), a, b. rewrite <- app_assoc. cbn. auto.
Qed.
Lemma prim_memrun k e e' : prim k e e' -> k <> KPop -> memrun e e'.
Proof.
  intros Hp Hk. destruct Hp; try (apply memrun_none; [reflexivity|cbn; rewrite ?rs_accept_io_eq; reflexivity]);
    try (eapply memrun_one; [reflexivity|cbn; rewrite ?rs_accept_io_eq; reflexivity]).
  - exists cs. split; [reflexivity|]. cbn. clear H0 Hk. revert H. generalize (rs_mem (en_state e)). induction cs as [|c r IH]; intros ms H; [done|].
    cbn in H. apply andb_prop in H as [H1 H2]. cbn. rewrite <- (IH _ H2). by destruct c.
  - rewrite leader_appended_eq. cbv zeta. destruct ps as [|q [|]]; try discriminate. eapply memrun_one; [reflexivity|].
    cbn. destruct q; cbn; rewrite ?rs_accept_io_eq; reflexivity.
  - rewrite fh_do_append_eq. eapply memrun_one; [reflexivity|]. cbn. destruct (last_two_memberships entries); reflexivity.
  - apply memrun_truncate.
  - exists [ReplicateCommitted (Some c); SaveCommitted c; CmdApply (rs_committed (en_state e)) c]. split; reflexivity.
  - exists [SaveCommitted c; CmdApply (rs_committed (en_state e)) c]. split; reflexivity.
  - rewrite sh_trigger_eq by assumption. eapply memrun_one; reflexivity.
  - rewrite logh_purge_eq. destruct (rs_purge_upto (en_state e)) eqn:Hu; [|by apply memrun_none].
    destruct (ologid_leb _ _); [by apply memrun_none|]. by eapply memrun_one.
  - rewrite fh_install_eq. destruct (sm_last _) as [sl|]; [|by apply memrun_none]. destruct (ologid_leb _ _); [by apply memrun_none|].
    destruct (ologid_leb _ _); [by apply memrun_none|]. cbv zeta. set (e1 := upd (set_snap (sn_meta sn)) e).
    assert (Hcut : memrun e (install_cut sl e1)).
    { unfold install_cut. destruct (rs_get_log_id (en_state e1) _) as [loc|]; [|by apply memrun_none].
      destruct (logid_eqb loc sl); [by apply memrun_none|]. apply (memrun_truncate _ e1). }
    eapply memrun_trans; [exact Hcut|]. set (e2 := install_cut sl e1). clearbody e2. clear Hcut e1.
    match goal with |- memrun _ (logh_purge ?a) => set (e3 := a) end.
    assert (H3 : memrun e2 e3). { eapply memrun_one; [reflexivity|]. cbn. rewrite rs_accept_io_eq. reflexivity. }
    eapply memrun_trans; [exact H3|]. clearbody e3. clear. rewrite logh_purge_eq. destruct (rs_purge_upto (en_state e3)) eqn:Hu; [|by apply memrun_none].
    destruct (ologid_leb _ _); [by apply memrun_none|]. by eapply memrun_one.
  - congruence.
Qed.
Lemma prims_memrun ks e e' : prims ks e e' -> KPop ∉ ks -> memrun e e'.
Proof.
  intros Hp Hk. revert e e' Hp. apply prims_ind_rel.
  - intros e. by apply memrun_none.
  - apply memrun_trans.
  - intros k a b Hin Hp. eapply prim_memrun; [exact Hp|]. intros ->. contradiction.
Qed.

Lemma olt_le (a b : option LogId) : ologid_leb a b = true -> ologid_ltb b a = true -> False.
Proof. ord. Qed.
Lemma olt_trans (a b c : option LogId) : ologid_leb a b = true -> ologid_ltb b c = true -> ologid_ltb a c = true.
Proof. ord. Qed.
(** ** The memberships of a node whose log ends at [L] and that has committed [cur] *)
Section minv.
  Context (H : Hist) (Hok : hist_ok H).

  Definition Minv (L cur : option LogId) (ms : MemState) : Prop :=
    path_mem H L (ms_effective ms) /\
    (ms_committed ms = ms_effective ms \/
     exists p, just_before H (ms_effective ms) p /\ path_mem H p (ms_committed ms) /\ pfx H cur p).

  Lemma minv_append L cur ms es : Minv L cur ms -> chain H L es -> pfx H cur L -> Minv (es_last L es) cur (foldl ms_append ms (last_two_memberships es)).
  Proof using Hok.
    intros [Me Mc] Hc Hcur. pose proof (pm_app H _ _ _ Me Hc) as Hl.
    destruct (last_two_cases es) as [[E1 E2]|[(m&E1&E2)|(l&m1&m2&E1&E2)]]; rewrite E1 in Hl; rewrite E2; cbn [foldl ms_append] in *.
    - split; [exact Hl|exact Mc].
    - cbn in Hl. split; [exact Hl|right]. unfold ms_append. cbn [ms_committed ms_effective].
      destruct (last_mem_split es m) as (es1&e&es2&->&P1&P2&P3&P4); [by rewrite E1|].
      apply chain_app in Hc as [Hc1 Hc2]. cbn in Hc2. destruct Hc2 as [Hh _].
      assert (Hn : memberships_in es1 = []). { rewrite E1 in P4. destruct (memberships_in es1) as [|? [|]]; [done|discriminate..]. }
      exists (es_last L es1). split; [|split].
      + exists (e_log_id e). rewrite P2, Hh, P1. done.
      + pose proof (pm_app H _ _ _ Me Hc1) as Hx. by rewrite Hn in Hx.
      + eapply pfx_trans; [exact Hcur|by apply chain_pfx].
    - rewrite last_app in Hl. cbn in Hl. split; [exact Hl|right]. unfold ms_append. cbn [ms_committed ms_effective].
      destruct (last_mem_split es m2) as (es1&e&es2&->&P1&P2&P3&P4); [by rewrite E1, last_app|].
      apply chain_app in Hc as [Hc1 Hc2]. cbn in Hc2. destruct Hc2 as [Hh _].
      assert (Hn : memberships_in es1 = l ++ [m1]). { rewrite E1 in P4. change [m1; m2] with ([m1] ++ [m2]) in P4. rewrite app_assoc in P4. by apply app_inj_tail in P4 as [<- _]. }
      exists (es_last L es1). split; [|split].
      + exists (e_log_id e). rewrite P2, Hh, P1. done.
      + pose proof (pm_app H _ _ _ Me Hc1) as Hx. rewrite Hn, last_snoc in Hx. exact Hx.
      + eapply pfx_trans; [exact Hcur|by apply chain_pfx].
  Qed.
  Lemma onat_leb_next (a b : option LogId) : onat_leb (olid_index a) (olid_index b) = true <-> next_index a <= next_index b.
  Proof.
    clear. destruct a as [a|], b as [b|]; cbn; unfold onat_leb; cbn; try (split; intros; try done; lia).
    destruct (Nat.compare_spec (lid_index a) (lid_index b)); cbn; split; intros; try done; lia.
  Qed.
  Lemma onat_leb_idx i a : onat_leb (Some i) (olid_index a) = true <-> i < next_index a.
  Proof. clear. rewrite <- (onat_leb_next (Some (mkLogId (mkLeaderId 0 0) i)) a). reflexivity. Qed.
  Lemma minv_truncate L L' cur ms x : Minv L cur ms -> pfx H L' L -> next_index L' = x -> pfx H cur L' -> next_index (em_log_id (ms_committed ms)) <= x ->
    Minv L' cur (ms_truncate ms x).
  Proof using Hok.
    intros [Me Mc] Hp Hi Hcur Hx. unfold ms_truncate. destruct (onat_leb _ _) eqn:Ho.
    - apply onat_leb_idx in Ho. destruct Mc as [Mc|(p & J & Mp & Cp)]; [rewrite Mc in Hx; lia|].
      destruct (jb_pfx H Hok _ _ _ J Me) as (J1 & J2 & J3 & J4).
      assert (HL : pfx H L' p) by (eapply (pfx_of_idx H Hok); [exact Hp|exact J1|lia]).
      assert (Hm : path_mem H L' (ms_committed ms)).
      { eapply pm_between; [exact Hok|exact Mp| |exact HL]. eapply (pfx_of_idx H Hok); [apply (pm_id H Hok); exact Mp|exact HL|lia]. }
      split; cbn; [exact Hm|by left].
    - assert (next_index (em_log_id (ms_effective ms)) <= x).
      { destruct (decide (x < next_index (em_log_id (ms_effective ms)))) as [l|]; [|lia]. apply onat_leb_idx in l. congruence. }
      split; [|exact Mc]. eapply pm_between; [exact Hok|exact Me| |exact Hp].
      eapply (pfx_of_idx H Hok); [apply (pm_id H Hok); exact Me|exact Hp|lia].
  Qed.
  Lemma minv_commit L cur ms c : Minv L cur ms -> pfx H c L -> Minv L c (ms_commit ms c).
  Proof using Hok.
    intros [Me Mc] Hp. unfold ms_commit. destruct (ologid_leb _ _) eqn:Ho; [split; cbn; [done|by left]|].
    split; [exact Me|]. destruct Mc as [Mc|(p & J & Mp & Cp)]; [by left|right]. exists p. split; [done|split; [done|]].
    destruct (jb_pfx H Hok _ _ _ J Me) as (J1 & J2 & J3 & J4).
    eapply (pfx_of_idx H Hok); [exact Hp|exact J1|].
    destruct (decide (next_index (em_log_id (ms_effective ms)) <= next_index c)) as [l|]; [|lia].
    assert (pfx H (em_log_id (ms_effective ms)) c) as Hx by (eapply (pfx_of_idx H Hok); [apply (pm_id H Hok); exact Me|exact Hp|exact l]).
    apply (pfx_le H Hok) in Hx. congruence.
  Qed.
  (** a snapshot within the log *)
  Lemma minv_install L cur ms c x : Minv L cur ms -> pfx H x L -> path_mem H x c -> Minv L x (ms_update_committed ms c).
  Proof using Hok.
    intros [Me Mc] Hp Hc. unfold ms_update_committed.
    pose proof (pm_le H Hok _ _ _ _ Me Hc Hp) as Hle.
    assert (Heff : (if onat_leb (olid_index (em_log_id (ms_effective ms))) (olid_index (em_log_id c)) then c else ms_effective ms) = ms_effective ms).
    { destruct (onat_leb _ _) eqn:Ho; [|done].
      assert (next_index (em_log_id (ms_effective ms)) <= next_index (em_log_id c)).
      { by apply onat_leb_next. }
      assert (He : em_log_id c = em_log_id (ms_effective ms)) by (eapply (pfx_eq_idx H Hok); [exact Hle|lia]).
      eapply pm_fun; [exact Hok|exact Hc|]. eapply pm_between; [exact Hok|exact Me| |exact Hp]. rewrite <- He. by apply (pm_id H Hok). }
    split; cbn [ms_effective ms_committed]; [by rewrite Heff|]. rewrite Heff.
    destruct Mc as [Mc|(p & J & Mp & Cp)].
    - left. rewrite Mc. destruct (ologid_ltb _ _) eqn:Hl; [|done]. exfalso. apply (pfx_le H Hok) in Hle. eapply olt_le; [exact Hle|exact Hl].
    - destruct (jb_pfx H Hok _ _ _ J Me) as (J1 & J2 & J3 & J4). destruct (decide (next_index x <= next_index p)) as [l|l].
      + assert (Hxp : pfx H x p) by (eapply (pfx_of_idx H Hok); [exact Hp|exact J1|exact l]).
        pose proof (pm_le H Hok _ _ _ _ Mp Hc Hxp) as Hc2. apply (pfx_le H Hok) in Hc2.
        destruct (ologid_ltb _ _) eqn:Hl; [exfalso; eapply olt_le; [exact Hc2|exact Hl]|]. right. exists p. auto.
      + assert (Hex : pfx H (em_log_id (ms_effective ms)) x) by (eapply (pfx_of_idx H Hok); [apply (pm_id H Hok); exact Me|exact Hp|lia]).
        assert (Hce : c = ms_effective ms). { eapply pm_fun; [exact Hok|exact Hc|]. by eapply pm_between. }
        left. rewrite Hce. destruct (ologid_ltb _ _) eqn:Hl; [done|]. exfalso.
        assert (Hlt : ologid_ltb p (em_log_id (ms_effective ms)) = true) by (apply (pfx_lt H Hok); done).
        pose proof (pfx_le H Hok _ _ (pm_id H Hok _ _ Mp)) as Hq. rewrite (olt_trans _ _ _ Hq Hlt) in Hl. discriminate.
  Qed.
  (** a snapshot that replaces the log *)
  Lemma minv_replace ms c x : path_mem H x c -> pfx H (em_log_id (ms_committed ms)) x ->
    path_mem H (em_log_id (ms_committed ms)) (ms_committed ms) -> path_mem H (em_log_id (ms_effective ms)) (ms_effective ms) ->
    (pfx H (em_log_id (ms_effective ms)) x \/ onat_leb (olid_index (em_log_id (ms_effective ms))) (olid_index (em_log_id c)) = true) ->
    Minv x x (ms_update_committed ms c).
  Proof using Hok.
    intros Hc Hcom Hmc Hme Heff. unfold ms_update_committed.
    pose proof (pm_id H Hok _ _ Hc) as Hci.
    assert (Hcc : pfx H (em_log_id (ms_committed ms)) (em_log_id c)) by (eapply pm_le; [exact Hok|exact Hc|exact Hmc|exact Hcom]).
    assert (He : (if onat_leb (olid_index (em_log_id (ms_effective ms))) (olid_index (em_log_id c)) then c else ms_effective ms) = c).
    { destruct Heff as [Hp|Ho]; [|by rewrite Ho]. destruct (onat_leb _ _) eqn:Ho; [done|]. exfalso.
      assert (Hce : pfx H (em_log_id (ms_effective ms)) (em_log_id c)) by (eapply pm_le; [exact Hok|exact Hc|exact Hme|exact Hp]).
      apply (pfx_idx H Hok), onat_leb_next in Hce. congruence. }
    rewrite He. split; cbn; [exact Hc|]. left. destruct (ologid_ltb _ _) eqn:Hl; [done|].
    assert (Heq : em_log_id (ms_committed ms) = em_log_id c).
    { destruct (decide (em_log_id (ms_committed ms) = em_log_id c)); [done|]. pose proof (pfx_lt H Hok _ _ Hcc ltac:(done)). congruence. }
    eapply pm_fun; [exact Hok|exact Hmc|]. rewrite Heq. eapply pm_between; [exact Hok|exact Hc|constructor|exact Hci].
  Qed.
  Lemma pm_self p m : path_mem H p m -> path_mem H (em_log_id m) m.
  Proof using Hok. intros Hm. eapply pm_between; [exact Hok|exact Hm|constructor|by apply (pm_id H Hok)]. Qed.
  Lemma minv_self L cur ms : Minv L cur ms -> path_mem H (em_log_id (ms_effective ms)) (ms_effective ms) /\ path_mem H (em_log_id (ms_committed ms)) (ms_committed ms).
  Proof using Hok. intros [Me [Mc|(p&_&Mp&_)]]; split; try rewrite Mc; by eapply pm_self. Qed.
End minv.

(** ** Over the commands of a step *)
Section mwalk.
  Context (E : Env) (me : nat) (HE : env_ok E).
  Notation H := (ev_hist E).
  Let Hok : hist_ok H := proj1 HE.

  (** where the log ends once a snapshot being installed has replaced it *)
  Definition wl (w : W) : option LogId :=
    match w_must w with
    | MPurgeTo x => if decide (next_index (dlast (w_d w)) <= lid_index x) then Some x else dlast (w_d w)
    | _ => dlast (w_d w)
    end.
  (** the condition under which a snapshot that replaces the log replaces the memberships *)
  Definition can_replace (ms : MemState) (sn : Snapshot) : Prop :=
    pfx H (em_log_id (ms_committed ms)) (sm_last (sn_meta sn)) /\
    (pfx H (em_log_id (ms_effective ms)) (sm_last (sn_meta sn)) \/
     onat_leb (olid_index (em_log_id (ms_effective ms))) (olid_index (em_log_id (sm_mem (sn_meta sn)))) = true).
  Definition mside (w : W) (ms : MemState) (c : Command) : Prop :=
    match c with
    | TruncateLog x => next_index (em_log_id (ms_committed ms)) <= lid_index x
    | InstallSnapshot sn _ => next_index (dlast (w_d w)) < next_index (sm_last (sn_meta sn)) -> pfx H (dlast (w_d w)) (sm_last (sn_meta sn)) \/ can_replace ms sn
    | _ => True
    end.
  Definition MI (w : W) (ms : MemState) : Prop := Minv H (wl w) (w_cur w) ms.
  Lemma snap_mem sn : snap_ok H sn -> path_mem H (sm_last (sn_meta sn)) (sm_mem (sn_meta sn)).
  Proof. intros (S1 & S2 & S3). rewrite S2, S3. by exists (sn_data sn). Qed.

  Lemma mi_step w ms c : pos E w -> wok E me w c -> mside w ms c -> MI w ms -> MI (wnext w c) (mem_cmd ms c).
  Proof using HE.
    intros Hp Hw Hs Hm. unfold MI in *.
    assert (Hlog : log_ok H (dk_log (w_d w))) by apply Hp.
    destruct c; cbn [wok] in Hw; cbn [mem_cmd mside] in *; try (unfold wl, wnext, dapply in *; cbn in *; exact Hm).
    all: try (destruct Hw as [Hmu Hw]; unfold wl in *; rewrite Hmu in Hm; unfold wnext, dapply; cbn in *; rewrite ?Hmu; exact Hm).
    all: try (unfold wl in *; rewrite Hw in Hm; unfold wnext, dapply; cbn in *; rewrite ?Hw; exact Hm).
    all: try (destruct Hw as [Hmu Hw]).
    - destruct Hw as (Hne & Hc & _). pose proof (p_must _ _ Hp) as Hmust. rewrite Hmu in Hmust. destruct Hmust as [Hcl _].
      unfold wl in Hm |- *. rewrite Hmu in Hm. unfold wnext, dapply. cbn [w_must cmd_wop wop_apply w_d w_cur dk_log]. rewrite Hmu.
      destruct (ls_append_ok H _ _ Hlog Hc) as [_ Hla]. rewrite Hla. by apply minv_append.
    - destruct committed as [c|]; [|done]. destruct Hw as (Hmu & _). unfold wl in *. rewrite Hmu in Hm. exact Hm.
    - assert (Hm' : Minv H (dlast (w_d w)) (w_cur w) ms) by (unfold wl in Hm; destruct Hmu as [Hmu|Hmu]; rewrite Hmu in Hm; exact Hm).
      unfold wl, wnext, dapply. cbn. exact Hm'.
    - unfold wl in Hm. rewrite Hmu in Hm. unfold wl, wnext, dapply. cbn [w_must cmd_wop w_d w_cur].
      pose proof (p_must _ _ Hp) as Hmust. rewrite Hmu in Hmust. eapply minv_commit; [exact Hok|exact Hm|apply Hmust].
    - unfold wl at 1, wnext, dapply. cbn [w_must cmd_wop w_d w_cur wop_apply dk_log].
      pose proof (p_must _ _ Hp) as Hmust. destruct Hw as [(Hmu & Hx & Hi)|(Hmu & Hf)]; unfold wl in Hm; rewrite Hmu in Hm, Hmust.
      + destruct (ls_purge_ok H Hok upto _ Hlog) as [_ Hl]; [|exact Hi|].
        * eapply pfx_trans; [exact Hx|apply Hmust].
        * rewrite Hl. exact Hm.
      + destruct Hmust as (Hcur & Hpu & _). assert (Hroot : pfx H None (Some upto)) by (rewrite <- Hcur; apply Hp).
        destruct (decide _) as [l|l].
        * destruct (ls_purge_beyond H Hok upto _ Hlog Hroot) as [_ Hl]; [lia|]. rewrite Hl. exact Hm.
        * destruct Hpu as [[Hx Hi]|]; [|lia]. destruct (ls_purge_ok H Hok upto _ Hlog Hx Hi) as [_ Hl]. rewrite Hl. exact Hm.
    - destruct Hw as (_ & Hx & Hi). unfold wl in Hm. rewrite Hmu in Hm. unfold wl, wnext, dapply. cbn [w_must cmd_wop w_d w_cur wop_apply dk_log]. rewrite Hmu.
      pose proof (p_must _ _ Hp) as Hmust. rewrite Hmu in Hmust. destruct Hmust as [Hcl _].
      pose proof (pfx_idx H Hok _ _ (p_purged _ _ Hp)) as Hpi.
      destruct (ls_truncate_ok H Hok (lid_index since) _ Hlog) as (_ & Hl1 & Hl2); [lia|]. pose proof (pfx_idx H Hok _ _ Hx) as Hxi. cbn in Hxi.
      rewrite Nat.min_l in Hl2 by lia.
      eapply minv_truncate; [exact Hok|exact Hm|exact Hl1|exact Hl2| |exact Hs].
      eapply (pfx_of_idx H Hok); [exact Hcl|exact Hl1|lia].
    - destruct Hw as (_ & Hsn & x & v & Hx & _ & _ & Hcx & _ & _ & Hpu). rewrite Hx in *. unfold wl in Hm. rewrite Hmu in Hm.
      pose proof (snap_mem _ Hsn) as Hsm. rewrite Hx in Hsm.
      unfold wl, wnext, dapply. cbn [w_must cmd_wop w_d w_cur wop_apply dk_log]. rewrite Hx. destruct (decide _) as [l|l].
      + unfold can_replace in Hs. rewrite Hx in Hs. destruct (minv_self H Hok _ _ _ Hm) as [S1 S2].
        assert (Hrep : pfx H (em_log_id (ms_committed ms)) (Some x) /\
          (pfx H (em_log_id (ms_effective ms)) (Some x) \/ onat_leb (olid_index (em_log_id (ms_effective ms))) (olid_index (em_log_id (sm_mem (sn_meta s)))) = true)).
        { destruct Hs as [Hd|Hr]; [cbn; lia| |exact Hr]. destruct Hm as [Me Mc].
          assert (He : pfx H (em_log_id (ms_effective ms)) (Some x)) by (eapply pfx_trans; [apply (pm_id H Hok); exact Me|exact Hd]).
          split; [|by left]. destruct Mc as [Mc|(p & J & Mp & _)]; [by rewrite Mc|].
          destruct (jb_pfx H Hok _ _ _ J Me) as (J1 & _). eapply pfx_trans; [apply (pm_id H Hok); exact Mp|]. eapply pfx_trans; [exact J1|exact Hd]. }
        apply minv_replace; [exact Hok|exact Hsm|apply Hrep|exact S2|exact S1|apply Hrep].
      + destruct Hpu as [[Hxl _]|]; [|lia]. eapply minv_install; [exact Hok|exact Hm|exact Hxl|exact Hsm].
  Qed.
End mwalk.
