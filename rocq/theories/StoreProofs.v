(** Storage and restart: shape of [helper_initial_state]. *)
From Coq Require Import Bool Lia ZifyBool ZifyNat.
From stdpp Require Import base numbers option gmap relations list.
From Verif Require Import Types TypesProofs LogIdList Membership RaftState ProgressEntry Engine EnginePrims Store.

Definition start_committed (d : Disk) (sm : StateMachine) : option LogId :=
  if ologid_ltb (dk_committed d) (sm_applied sm) then sm_applied sm else dk_committed d.
Definition start_purges (c : option LogId) (d : Disk) : Prop :=
  match c with Some la => ologid_ltb (ls_last (dk_log d)) (Some la) = true | None => False end.

Lemma start_committed_max d sm :
  start_committed d sm = ologid_max (sm_applied sm) (dk_committed d) \/
  start_committed d sm = ologid_max (dk_committed d) (sm_applied sm).
Proof.
  unfold start_committed, ologid_max. destruct (ologid_ltb (dk_committed d) (sm_applied sm)) eqn:H; [|auto].
  right. destruct (ologid_ltb (dk_committed d) (sm_applied sm)); congruence.
Qed.

(** Everything [helper_initial_state] computes. *)
Lemma helper_initial_inv now d sm s d1 sm2 :
  helper_initial_state now d sm = Ok (s, d1, sm2) ->
  exists sm1 last_log last_purged ids,
    let c := start_committed d sm in
    let meta := match sm_snapshot sm2 with Some sn => sn_meta sn | None => sm_default end in
    let vote := default vote_default (dk_vote d) in
    (if ologid_ltb (sm_applied sm) c
     then helper_reapply (next_index (sm_applied sm)) (next_index c) (dk_log d) sm = Ok sm1
     else sm1 = sm /\ c = sm_applied sm) /\
    ((start_purges c d /\ d1 = mkDisk (dk_vote d) (dk_committed d) (dk_log d1) /\
      dk_log d1 = match c with Some la => ls_purge la (dk_log d) | None => dk_log d end /\
      last_log = c /\ last_purged = c) \/
     (~ start_purges c d /\ d1 = d /\ last_log = ls_last (dk_log d) /\ last_purged = ls_purged (dk_log d))) /\
    load_log_ids (S (2 * next_index last_log)) last_purged last_log
      (fun i => match ls_read i (S i) (dk_log d1) with e :: _ => Some (e_log_id e) | [] => None end) = LoadOk ids /\
    sm2 = match sm_snapshot sm1, last_purged with
          | None, Some _ => mkSM (sm_entries sm1) (sm_applied sm1) (sm_membership sm1) (Some (sm_build sm1))
          | _, _ => sm1
          end /\
    s = mkRS (mkLeased vote (Some now) 0 true) c (next_index last_purged) ids
          (helper_get_membership (dk_log d) sm1) meta SLearner
          (io_state_new vote c (sm_last meta) last_purged) last_purged.
Proof.
  unfold helper_initial_state. fold (start_committed d sm). set (c := start_committed d sm). intros H.
  destruct (if ologid_ltb (sm_applied sm) c then helper_reapply _ _ _ _ else _) as [sm1|] eqn:Hre;
    cbn [res_bind] in H; [|discriminate].
  assert (Hla : (if ologid_ltb (sm_applied sm) c then c else sm_applied sm) = c).
  { destruct (ologid_ltb (sm_applied sm) c) eqn:Hlt; [reflexivity|]. subst c. unfold start_committed in *.
    destruct (ologid_ltb (dk_committed d) (sm_applied sm)) eqn:H2; [reflexivity|].
    apply ologid_leb_antisym.
    - rewrite ologid_ltb_negb in H2. destruct (ologid_leb _ _); [reflexivity|discriminate].
    - rewrite ologid_ltb_negb in Hlt. destruct (ologid_leb _ _); [reflexivity|discriminate]. }
  rewrite Hla in H.
  match type of H with (let '(_, _) := ?t in _) = _ =>
    destruct t as [[d0 last_log] last_purged] eqn:Hm end.
  assert (Hd : (start_purges c d /\ d0 = mkDisk (dk_vote d) (dk_committed d) (dk_log d0) /\
      dk_log d0 = match c with Some la => ls_purge la (dk_log d) | None => dk_log d end /\
      last_log = c /\ last_purged = c) \/
     (~ start_purges c d /\ d0 = d /\ last_log = ls_last (dk_log d) /\ last_purged = ls_purged (dk_log d))).
  { clear H Hre Hla. destruct c as [la|].
    - unfold start_purges. destruct (ologid_ltb (ls_last (dk_log d)) (Some la)) eqn:Hp; injection Hm as <- <- <-.
      + left. repeat split.
      + right. repeat split. discriminate.
    - injection Hm as <- <- <-. right. repeat split. exact id. }
  clear Hm.
  destruct (load_log_ids _ _ _ _) as [ids| |] eqn:Hl; [|discriminate..].
  injection H as Hs Hd1 Hsm. subst d0.
  exists sm1, last_log, last_purged, ids. cbv zeta. repeat split.
  - destruct (ologid_ltb (sm_applied sm) c); [exact Hre|]. injection Hre as ->. split; congruence.
  - exact Hd.
  - exact Hl.
  - rewrite <- Hsm. reflexivity.
  - rewrite <- Hs, Hsm. reflexivity.
Qed.
