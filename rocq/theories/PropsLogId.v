(** C08, C09: the compact log-id index. *)
From Verif Require Import Types LogIdList LogIdSpec LogIdListProofs LogIdLoadProofs.
From Coq Require Import Lia.
From stdpp Require Import base numbers list.

Theorem C08_index_answers_like_full_log : forall b ids0 ops,
  consecutive b ids0 -> ops_ok ids0 ops ->
  let ids := ids_run ids0 ops in
  let keys := lil_run (compress ids0) ops in
  keys = compress ids /\
  (forall i, lil_get keys i = ids_get ids i) /\
  lil_first keys = head ids /\
  lil_last keys = last ids /\
  lil_by_last_leader keys = run_ends (last_run ids).
Proof. exact lil_history. Qed.
Print Assumptions C08_index_answers_like_full_log.

Definition ex_id (t n i : nat) : LogId := mkLogId (mkLeaderId t n) i.
Definition ex_ids : list LogId :=
  [ex_id 1 0 3; ex_id 1 0 4; ex_id 1 0 5; ex_id 2 1 6; ex_id 2 1 7; ex_id 4 1 8; ex_id 4 1 9].
Definition ex_ops : list LilOp :=
  [OTruncate 7; OExtend [ex_id 3 2 7; ex_id 3 2 8; ex_id 5 1 9]; OPurge (ex_id 1 0 4);
   OExtendSame [ex_id 6 2 10; ex_id 6 2 11; ex_id 6 2 12]].
Example C08_nontrivial : consecutive 3 ex_ids /\ ops_ok ex_ids ex_ops /\
  ids_run ex_ids ex_ops =
    [ex_id 1 0 4; ex_id 1 0 5; ex_id 2 1 6; ex_id 3 2 7; ex_id 3 2 8; ex_id 5 1 9;
     ex_id 6 2 10; ex_id 6 2 11; ex_id 6 2 12].
Proof.
  split; [by apply consecutive_seq|]. split; [|reflexivity].
  repeat split.
  - exists 3. by apply consecutive_seq.
  - exists 4. by apply consecutive_seq.
  - exists (mkLeaderId 6 2). repeat constructor.
Qed.

Theorem C09_load_log_ids_is_full_scan : forall fuel b ids last_purged sto,
  consecutive b ids -> leaders_sorted ids ->
  match last_purged with None => b = 0 | Some p => head ids = Some p end ->
  (forall i x, ids_get ids i = Some x -> (last_purged = None \/ b < i) -> sto i = Some x) ->
  2 * length ids < fuel ->
  load_log_ids fuel last_purged (last ids) sto = LoadOk (compress ids).
Proof. exact load_log_ids_compress. Qed.
Print Assumptions C09_load_log_ids_is_full_scan.

Example C09_nontrivial :
  consecutive 3 ex_ids /\ leaders_sorted ex_ids /\ head ex_ids = Some (ex_id 1 0 3) /\
  (forall i x, ids_get ex_ids i = Some x -> (Some (ex_id 1 0 3) = None \/ 3 < i) ->
     (fun i => if i <=? 3 then None else ids_get ex_ids i) i = Some x).
Proof.
  split; [by apply consecutive_seq|]. split; [|split; [reflexivity|]].
  - intros i j x y Hij Hi Hj.
    do 7 (destruct i as [|i]; [do 7 (destruct j as [|j]; [cbn in Hi, Hj; injection Hi as <-; injection Hj as <-; cbn; try reflexivity; lia|]); cbn in Hj; discriminate|]).
    cbn in Hi. discriminate.
  - intros i x Hi [?|?]; [discriminate|]. destruct (i <=? 3) eqn:E; [|done].
    apply Nat.leb_le in E. lia.
Qed.
