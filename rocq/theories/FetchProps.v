(** FetchProps.v: C34, the rows of a statement *)
From Verif Require Import Base BaseProof PBufferModel Element3Model NegModel NegSpec InstModel InstSpec FetchModel FetchSpec.
From Verif Require Import FetchProof2 FetchProof3 FetchProof4 FetchProof5.

(** ** all the rows of a statement in one protocol transaction: stmt(...), first(), rows() and
    chunks() of a statement without a source, COPY TO STDOUT *)

(** At any time, whatever happened (other uses of the connection, interrupted calls, errors, a
    lost connection), the chunks got are the rows (or the lines) sent by the server, each
    once, in order, from the first on. *)
Theorem C34_rows_in_order stmt afmts args rfmts ex e f out : readable 0 e ->
  fetch_run ex (fetchall_cmds stmt afmts args rfmts) e f out ->
  Forall2 msg_is (firstn (length (concat out)) (data (wire_msgs e))) (concat out).
Proof. intros R H. apply (fetch_run_inv _ _ _ _ _ _ _ _ R H). Qed.

(** It is said that there are no more rows only when all the rows of a conversation without
    any error, ended by the server, were got.  So an error of the server, or the loss of the
    connection, is never taken for the end. *)
Theorem C34_end_is_the_end stmt afmts args rfmts ex e f out fuel f' : readable 0 e ->
  fetch_run ex (fetchall_cmds stmt afmts args rfmts) e f out -> fetch_next fuel f = (f', FDone None) ->
  exists n, conv (fetchall_cmds stmt afmts args rfmts) (sync_part (firstn n (wire_msgs e))) None /\
    Forall2 msg_is (data (firstn n (wire_msgs e))) (concat out).
Proof.
  intros R H E.
  assert (H' : fetch_run ex (fetchall_cmds stmt afmts args rfmts) e f' out) by (eapply fr_none; [exact H|exact E|discriminate]).
  destruct (fetch_run_inv _ _ _ _ _ _ _ _ R H') as (_ & I).
  assert (X : f_x f' = None).
  { unfold fetch_next in E. destruct (f_x f) as [x|] eqn:Ex; [|injection E as <-; exact Ex].
    destruct (next_loop fuel x (f_in f)) as [[x1 e1] [u| | |]]; try discriminate. destruct (faulted x1); [discriminate|].
    destruct (i_completed x1) as [|[? ?] ?]; [|discriminate]. injection E as <-. reflexivity. }
  rewrite X in I. exact I.
Qed.

(** When the whole answer of the server arrives, in whatever pieces, and it is one of the kind
    of the statement (68: rows, 72: lines; 71 would be COPY FROM STDIN), the iteration makes
    every row and ends. *)
Theorem C34_rows_whole stmt afmts args rfmts ex e fuel n : readable 0 e -> never_lost e ->
  conv (fetchall_cmds stmt afmts args rfmts) (sync_part (wire_msgs e)) None ->
  ex = 68 \/ ex = 72 -> (forall x, List.In x (wire_msgs e) -> fst x <> 71 /\ (ex = 68 -> fst x <> 72)) ->
  (4 * length e + 4 <= fuel)%nat -> (length e < n)%nat ->
  exists f, fetch_init fuel ex (fetchall_cmds stmt afmts args rfmts) e = FDone f /\
    exists rows, drain fuel n f [] = FDone rows /\ Forall2 msg_is (data (wire_msgs e)) rows.
Proof. intros R NL V EX Fit Hf Hn. apply live; auto. Qed.

(** ** many requests of [chunksize] rows: rows() and chunks() of a statement with a source *)

(** Whatever the chunk size, and with other uses of the connection in between: the chunks are
    the rows in order; none is empty, and all but the last are of the chunk size. *)
Theorem C34_stream_in_order {R} cs (rp : nat -> reply R) rows m out : 0 < cs -> cursor_replies cs rp rows ->
  stream_run cs rp m out ->
  concat out = firstn (length (concat out)) rows /\ Forall (fun c => 0 < len c <= cs) out /\
  exists a b, out = a ++ b /\ Forall (fun c => len c = cs) a /\ (length b <= 1)%nat.
Proof.
  intros Cs H Hr. destruct (sinv_run cs rp rows Cs H _ _ Hr) as (F & I). split; [|split].
  - destruct (m_x m) as [i|]; [destruct I as (_ & E & _)|destruct I as (E & _); rewrite E; now rewrite firstn_all].
    rewrite E at 2. rewrite firstn_length. rewrite E.
    destruct (Nat.le_gt_cases (i * Z.to_nat cs) (length rows)) as [Q|Q]; [now rewrite Nat.min_l|].
    rewrite Nat.min_r by lia. rewrite firstn_all. apply firstn_all2. lia.
  - eapply Forall_impl; [|exact F]. cbn. intros c (N & L). destruct c; [congruence|]. unfold len in *. cbn [length] in *. lia.
  - destruct (m_x m) as [i|]; [destruct I as (_ & _ & A); exists out, []; rewrite app_nil_r; cbn; auto|apply I].
Qed.
(** the end is said when all the rows were got *)
Theorem C34_stream_end {R} cs (rp : nat -> reply R) rows m out m' : 0 < cs -> cursor_replies cs rp rows ->
  stream_run cs rp m out -> stream_next cs rp m = (m', FDone None) -> concat out = rows.
Proof.
  intros Cs H Hr E. pose proof (sinv_next cs rp rows Cs H _ _ _ _ (sinv_run cs rp rows Cs H _ _ Hr) E) as ((_ & I) & X).
  rewrite X in I. apply I.
Qed.
(** and it is said: also when the number of rows is a multiple of the chunk size *)
Theorem C34_stream_whole {R} cs (rp : nat -> reply R) rows n : 0 < cs -> cursor_replies cs rp rows ->
  (length rows + 2 <= n)%nat -> stream_drain n cs rp stream_init [] = FDone rows.
Proof.
  intros Cs H N. destruct n as [|n]; [lia|]. apply (stream_ends cs rp rows Cs H n stream_init []); [apply sinv_init|cbn; lia|lia].
Qed.
(** a request that fails: its error is raised by the iteration, after the rows before it *)
Theorem C34_stream_failure {R} cs (rp : nat -> reply R) i n : 0 < cs ->
  (forall j, (j < i)%nat -> rp_failed (rp j) = false /\ len (rp_rows (rp j)) = cs) -> rp_failed (rp i) = true -> (i < n)%nat ->
  stream_drain n cs rp stream_init [] = FRaise /\
  exists m out, stream_run cs rp m out /\ concat out = concat (map (fun j => rp_rows (rp j)) (seq 0 i)) /\ snd (stream_next cs rp m) = FRaise.
Proof.
  intros Cs Hj Hi N.
  assert (Nx : forall j, (j < i)%nat -> stream_next cs rp {| m_x := Some j; m_current := true; m_pushed := S j |} =
    ({| m_x := Some (S j); m_current := true; m_pushed := S (S j) |}, FDone (Some (rp_rows (rp j))))).
  { intros j L. destruct (Hj j L) as (A & B). unfold stream_next. cbn [m_x m_current m_pushed]. rewrite A, B, Z.eqb_refl. reflexivity. }
  assert (Rs : snd (stream_next cs rp {| m_x := Some i; m_current := true; m_pushed := S i |}) = FRaise) by (unfold stream_next; cbn; rewrite Hi; reflexivity).
  split.
  - assert (G : forall d j n r, (j + d = i)%nat -> (d < n)%nat -> stream_drain n cs rp {| m_x := Some j; m_current := true; m_pushed := S j |} r = FRaise).
    { induction d as [|d IH]; intros j n' r E L; (destruct n' as [|n']; [lia|]); cbn [stream_drain].
      - replace j with i by lia. destruct (stream_next _ _ _) as [? ?]. cbn in Rs. subst. reflexivity.
      - rewrite Nx by lia. apply IH; lia. }
    apply (G i 0%nat); lia.
  - assert (G : forall j, (j <= i)%nat -> stream_run cs rp {| m_x := Some j; m_current := true; m_pushed := S j |} (map (fun j => rp_rows (rp j)) (seq 0 j))).
    { induction j as [|j IH]; intros L; [constructor|]. rewrite seq_S, map_app. cbn [map]. eapply sr_next; [apply IH; lia|]. cbn. apply Nx. lia. }
    exists {| m_x := Some i; m_current := true; m_pushed := S i |}, (map (fun j => rp_rows (rp j)) (seq 0 i)). auto.
Qed.

(** What does not hold: the failed request was completed by another use of the connection (the
    error was raised there), or the exception was caught and the iteration goes on: then the
    rows are said to be all there. *)
Theorem C34_stream_truncated_refuted : exists (rp : nat -> reply Z) m out m' m'',
  rp_failed (rp 1%nat) = true /\ rp_rows (rp 0%nat) = [1; 2] /\
  stream_run 2 rp m out /\ out = [[1; 2]] /\
  (* by another use *)
  stream_other rp m = (m', FRaise) /\ snd (stream_next 2 rp m') = FDone None /\
  (* after the exception *)
  stream_next 2 rp m = (m'', FRaise) /\ snd (stream_next 2 rp m'') = FDone None.
Proof.
  exists (fun i => match i with O => {| rp_rows := [1; 2]; rp_failed := false |} | _ => {| rp_rows := []; rp_failed := true |} end).
  exists {| m_x := Some 1%nat; m_current := true; m_pushed := 2 |}, [[1; 2]].
  exists {| m_x := Some 1%nat; m_current := false; m_pushed := 2 |}, {| m_x := Some 1%nat; m_current := false; m_pushed := 2 |}.
  split; [reflexivity|]. split; [reflexivity|]. split; [eapply (sr_next _ _ stream_init []); [constructor|reflexivity]|].
  repeat split.
Qed.

(** chunks(): COPY statements and those without rows in one transaction; a cursor outside of
    a block needs the source of the statement *)
Theorem C34_strategy output idle source :
  (chunks_strategy output idle source = StCopy <-> output = false) /\
  (chunks_strategy output idle source = StOutside <-> output = true /\ idle = true /\ source = true) /\
  (chunks_strategy output idle source = StInside <-> output = true /\ idle = false) /\
  (call_strategy output = StCopy <-> output = false) /\ (call_strategy output = StFetch <-> output = true).
Proof. destruct output, idle, source; cbn; repeat split; try discriminate; intuition discriminate. Qed.

Print Assumptions C34_rows_in_order. Print Assumptions C34_end_is_the_end. Print Assumptions C34_rows_whole.
Print Assumptions C34_stream_in_order. Print Assumptions C34_stream_end. Print Assumptions C34_stream_whole.
Print Assumptions C34_stream_failure. Print Assumptions C34_stream_truncated_refuted. Print Assumptions C34_strategy.

(** ** the hypotheses are met *)
Definition row (b : Z) : wmsg := (68, [0; 1; 0; 0; 0; 1; b]).
Definition done : wmsg := (67, [83; 69; 76; 69; 67; 84; 0]).
Definition ready : wmsg := (90, [73]).
Definition w3 : list wire := [WBatch 1 [(50, []); row 7]; WBatch 2 [row 8; row 9]; WBatch 3 [done; ready]].
Example rows_case : match fetch_init 16 68 (fetchall_cmds [115] [] [] []) w3 with
  | FDone f => drain 16 4 f [] = FDone [MTuple [Some [7]]; MTuple [Some [8]]; MTuple [Some [9]]]
  | _ => False end.
Proof. vm_compute. reflexivity. Qed.
Lemma row_ok b : well_formed (row b).
Proof.
  split; [|split].
  - cbn. intros k [= <-]. eexists. cbv. reflexivity.
  - intros H. destruct H as [H|[H|H]]; discriminate.
  - discriminate.
Qed.
Example readable_case : readable 0 w3 /\ never_lost w3 /\ conv (fetchall_cmds [115] [] [] []) (sync_part (wire_msgs w3)) None.
Proof.
  split; [|split].
  - assert (W : forall x k m, srv_kind (fst x) = Some k -> parse k (snd x) = Ok m -> fst x <> 78 -> fst x <> 65 -> fst x <> 83 -> fst x <> 69 -> well_formed x).
    { intros x k m A B N1 N2 N3 N4. split; [intros k' Q; rewrite A in Q; injection Q as <-; eauto|]. split; [intros [Q|[Q|Q]]; congruence|congruence]. }
    cbn [readable w3].
    assert (B : well_formed (50, [])) by (eapply W; [reflexivity|reflexivity|..]; discriminate).
    assert (D : well_formed done) by (eapply W; [reflexivity|vm_compute; reflexivity|..]; discriminate).
    assert (Z' : well_formed ready) by (eapply W; [reflexivity|vm_compute; reflexivity|..]; discriminate).
    assert (F1 : forall a b, well_formed a -> well_formed b -> Forall well_formed [a; b]) by (intros; constructor; [|constructor; [|constructor]]; assumption).
    do 3 (split; [discriminate|split; [discriminate|split; [apply F1; auto using row_ok|]]]). exact I.
  - unfold never_lost, w3. repeat constructor; discriminate.
  - change (sync_part (wire_msgs w3)) with ([(50, [])] ++ ([row 7; row 8; row 9; done]) ++ [ready] ++ []).
    eapply cv_answer; [reflexivity|constructor|]. eapply cv_answer; [reflexivity|exact (an_execute_rows 2)|].
    eapply cv_answer; [reflexivity|constructor|]. constructor.
Qed.
(** an error in the middle: the rows before it, then the exception *)
Example error_case : match fetch_init 16 68 (fetchall_cmds [115] [] [] [])
    [WBatch 1 [(50, []); row 7]; WBatch 2 [(69, [83; 69; 82; 82; 79; 82; 0; 67; 48; 0; 77; 0; 0])]; WBatch 3 [ready]] with
  | FDone f => match fetch_next 16 f with (f, FDone (Some [MTuple [Some [7]]])) => snd (fetch_next 16 f) = FRaise | _ => False end
  | _ => False end.
Proof. vm_compute. reflexivity. Qed.
Example lost_case : match fetch_init 16 68 (fetchall_cmds [115] [] [] []) [WBatch 1 [(50, []); row 7]; WLost] with
  | FDone f => match fetch_next 16 f with (f, FDone (Some [MTuple [Some [7]]])) => snd (fetch_next 16 f) = FRaise | _ => False end
  | _ => False end.
Proof. vm_compute. reflexivity. Qed.
(** four rows by two *)
Definition rp4 : nat -> reply Z := fun i => {| rp_rows := firstn 2 (skipn (i * 2) [1; 2; 3; 4]); rp_failed := false |}.
Example stream_case : cursor_replies 2 rp4 [1; 2; 3; 4] /\ stream_drain 6 2 rp4 stream_init [] = FDone [1; 2; 3; 4].
Proof. split; [intros i; reflexivity|vm_compute; reflexivity]. Qed.
