(** LcopyProps.v: C64, loading by COPY *)
From Verif Require Import Base BaseProof PBufferModel PBufferProof Element3Model Element3Proof NegModel NegSpec NegProof InstModel InstSpec InstProof InstProof2 InstProof3 InstProps ConnProof FetchModel FetchSpec FetchProof2 LoadModel LoadSpec LoadProof2 LcopyModel LcopySpec LcopyProof LcopyProof2.

Section C64.
  Context (lose : nat -> option nat) (stmt : bytes) (e : list wire) (BD : batches_differ 0 e).

  Lemma first_state x : inst_init (copy_cmds stmt) = Ok x -> let s := send_step lose {| k_x := x; k_e := e; k_out := [] |} in
    Bs lose stmt e s (begin_copy stmt) /\ before s.
  Proof.
    intros E. assert (I : irun (copy_cmds stmt) x []) by now constructor. cbn in E. injection E as <-. cbv zeta.
    match goal with |- context [send_step lose ?q] => set (s := q) in * end.
    assert (B : Bs lose stmt e s []).
    { split; [reflexivity|]. split; [intros _; exact BD|]. split; [intros _; exists [], []; auto|]. left. split; [intros i Hi; inversion Hi|reflexivity]. }
    pose proof (send_Bs lose stmt e s [] B (or_introl eq_refl)) as B'. split; [exact B'|].
    unfold before, send_step. cbn [k_x inst_sent i_state]. destruct (lose _); cbn [k_x]; (split; [reflexivity|left; left; reflexivity]).
  Qed.
  Lemma load_spec fuel chunks s r : load_copy lose fuel stmt e chunks = Ok (s, r) ->
    (exists p, SS lose s (begin_copy stmt ++ p) /\ prefix p (map IRaw (all_lines chunks) ++ match lines_end chunks with None => end_copy | Some _ => [] end)) /\
    match r with
    | CpDone => lines_end chunks = None /\ Bs lose stmt e s (begin_copy stmt ++ map IRaw (all_lines chunks) ++ end_copy) /\ complete (k_x s) = true /\ faulted (k_x s) = false
    | CpIter er => lines_end chunks = Some er /\ Bs lose stmt e s (begin_copy stmt ++ map IRaw (all_lines chunks)) /\ started s
    | CpNotCopy => Bs lose stmt e s (begin_copy stmt) /\ complete (k_x s) = true /\ faulted (k_x s) = false
    | CpServer => faulted (k_x s) = true
    | _ => True
    end.
  Proof.
    intros E. unfold load_copy in E. apply bind_Ok in E as (x & I & E). injection E as E.
    destruct (first_state x I) as (B & Be). cbv zeta in *. set (s0 := send_step lose _) in *. clearbody s0.
    destruct (start_copy lose fuel s0) as [s1 [q|]] eqn:S1; destruct (start_spec _ _ _ _ _ _ _ _ B Be S1) as (D & X).
    { injection E as <- <-. split; [exists []; rewrite app_nil_r; split; [exact D|now eexists]|]. destruct q; auto; contradiction. }
    destruct X as (B1 & St1). destruct (copy_chunks lose fuel s1 chunks) as [s2 [q|]] eqn:S2; destruct (chunks_spec _ _ _ _ _ _ _ _ _ B1 St1 S2) as ((p & P1 & P2) & X).
    { injection E as <- <-. split; [|destruct q; auto; contradiction].
      exists (map IRaw p). split; [exact P1|]. destruct P2 as (p2 & ->). exists (map IRaw p2 ++ match lines_end chunks with None => end_copy | Some _ => [] end). now rewrite map_app, <- app_assoc. }
    destruct X as (L & B2 & St2). rewrite L.
    assert (B3 := data_Bs lose stmt e s2 _ PDone B2 (proj2 St2) (or_introl eq_refl)).
    destruct (complete_spec lose stmt e fuel _ _ s r B3 (proj2 St2) (or_introl eq_refl) E) as (D2 & X).
    assert (O : outgoing (k_x (with_x s2 (set_messages (k_x s2) PDone))) = end_copy) by (destruct St2 as (_ & _ & _ & T); unfold outgoing; cbn [with_x k_x set_messages i_messages i_tail]; rewrite T; reflexivity).
    rewrite O, <- app_assoc in *.
    split; [|destruct r; try contradiction; auto; destruct X; auto].
    destruct D2 as [(D2 & _)|D2]; [exists (map IRaw (all_lines chunks)); split; [exact D2|apply prefix_app]|exists (map IRaw (all_lines chunks) ++ end_copy); split; [exact D2|apply prefix_refl]].
  Qed.
  Lemma SS_clean s full : SS lose s full -> faulted (k_x s) = false -> sent s = full.
  Proof. intros [(_ & E)|(_ & F & _)] N; [exact E|congruence]. Qed.
  Lemma SS_noloss s full : SS lose s full -> (forall i, lose i = None) -> sent s = full.
  Proof. intros [(_ & E)|((i & n & _ & Q) & _)] N; [exact E|rewrite N in Q; discriminate]. Qed.
  Lemma SS_prefix s full : SS lose s full -> lost_for_good lose -> prefix (sent s) full.
  Proof. intros [(_ & ->)|(_ & _ & P)] L; [apply prefix_refl|apply P, L]. Qed.
  Lemma Bs_conv s full : Bs lose stmt e s full -> complete (k_x s) = true -> faulted (k_x s) = false ->
    exists n, conv (copy_request stmt) (sync_part (firstn n (wire_msgs e))) None.
  Proof.
    intros (_ & _ & W & _) C F. destruct (W F) as (tr & left & H & E & _). apply complete_true in C. apply faulted_false in F.
    destruct (C25_complete _ _ _ H C F) as (V & _). exists (length (recvd tr)). rewrite E, firstn_firstn_app, firstn_all by lia. exact V.
  Qed.

  (** A call that returns has sent the request, every line of every chunk in order, once, and the
      end of the data; the iterable had come to its end; the server answered the whole request
      without an error. *)
  Theorem C64_all fuel chunks s : load_copy lose fuel stmt e chunks = Ok (s, CpDone) ->
    lines_end chunks = None /\ sent s = begin_copy stmt ++ map IRaw (all_lines chunks) ++ end_copy /\
    exists n, conv (copy_request stmt) (sync_part (firstn n (wire_msgs e))) None.
  Proof.
    intros E. destruct (load_spec _ _ _ _ E) as (_ & L & B & C & F). split; [exact L|]. split; [eapply SS_clean; [apply B|exact F]|eapply Bs_conv; eauto].
  Qed.
  (** However it ends, what has gone out by then is a beginning of that; the end of the data is
      not sent unless the iterable had come to its end. *)
  Theorem C64_sent fuel chunks s r : lost_for_good lose -> load_copy lose fuel stmt e chunks = Ok (s, r) ->
    prefix (sent s) (begin_copy stmt ++ map IRaw (all_lines chunks) ++ match lines_end chunks with None => end_copy | Some _ => [] end).
  Proof.
    intros G E. destruct (load_spec _ _ _ _ E) as ((p & P1 & P2) & _). eapply prefix_trans; [apply SS_prefix; [exact P1|exact G]|apply prefix_app_l, P2].
  Qed.
  (** An exception of the iterable is raised as it is, after the lines before it were sent.
      Whatever is done next with the connection fails the COPY: its data are never committed
      by an end of the data. *)
  Theorem C64_exception fuel chunks s er : load_copy lose fuel stmt e chunks = Ok (s, CpIter er) ->
    lines_end chunks = Some er /\
    ((forall i, lose i = None) -> sent s = begin_copy stmt ++ map IRaw (all_lines chunks)) /\
    (lost_for_good lose -> forall fuel' s' r, next_operation lose fuel' s = (s', r) ->
       prefix (sent s') (begin_copy stmt ++ map IRaw (all_lines chunks) ++ fail_copy)) /\
    ((forall i, lose i = None) -> forall fuel' s' r, next_operation lose (S fuel') s = (s', r) ->
       sent s' = begin_copy stmt ++ map IRaw (all_lines chunks) ++ fail_copy).
  Proof.
    intros E. destruct (load_spec _ _ _ _ E) as (_ & L & B & St). split; [exact L|]. split; [intros G; apply SS_noloss; [apply B|exact G]|].
    assert (O : outgoing (k_x s) = fail_copy) by (destruct St as (M & _ & _ & T); unfold outgoing; rewrite M, T; reflexivity).
    split.
    - intros G fuel' s' r Q. destruct (complete_spec lose stmt e fuel' _ _ s' r B (proj2 St) (or_intror (proj1 St)) Q) as (D & _). rewrite O, <- app_assoc in D.
      destruct D as [(D & _)|D]; [eapply prefix_trans; [apply SS_prefix; [exact D|exact G]|apply prefix_app_l, prefix_app]|apply SS_prefix; [exact D|exact G]].
    - intros G fuel' s' r Q. destruct (complete_spec lose stmt e _ _ _ s' r B (proj2 St) (or_intror (proj1 St)) Q) as (D & _). rewrite O, <- app_assoc in D.
      destruct D as [(_ & D)|D]; [discriminate|]. apply SS_noloss; auto.
  Qed.
  (** A statement without parameters which is not a COPY FROM STDIN is refused, but it was
      executed, without an error. *)
  Theorem C64_not_copy fuel chunks s : load_copy lose fuel stmt e chunks = Ok (s, CpNotCopy) ->
    sent s = begin_copy stmt /\ exists n, conv (copy_request stmt) (sync_part (firstn n (wire_msgs e))) None.
  Proof.
    intros E. destruct (load_spec _ _ _ _ E) as (_ & B & C & F). split; [eapply SS_clean; [apply B|exact F]|eapply Bs_conv; eauto].
  Qed.
End C64.

(** ** The server that does as it is told *)
Definition bind_ok : wmsg := (50, []).
Definition copy_in : wmsg := (71, [0; 0; 0]).
Definition done (tag : bytes) : wmsg := (67, tag ++ [0]).
Definition idle : wmsg := (90, [73]).
Definition obedient (tag : bytes) : list wire := [WBatch 1 [bind_ok; copy_in]; WBatch 2 [done tag; idle]].
(** the error that answers a CopyFail, and any other *)
Definition refusing (body : bytes) : list wire := [WBatch 1 [bind_ok; copy_in]; WBatch 2 [(69, body); idle]].
Definition never : nat -> option nat := fun _ => None.
Definition in_copy (stmt : bytes) : inst :=
  {| i_cmds := copy_cmds stmt; i_completed := [(1, [MEmpty EBindComplete; MCopyBegin false 0 []])]; i_last := 1; i_prev := (0, 0)%nat; i_cur := (1, 3)%nat;
     i_state := ISendStdin; i_messages := PFail; i_tail := [MEmpty ESynchronize]; i_fatal := None; i_error := None; i_asyncs := []; i_delivered := []; i_ready := None |}.
Lemma copy_started (r : list wire) stmt fuel chunks : load_copy never (S (S fuel)) stmt (WBatch 1 [bind_ok; copy_in] :: r) chunks =
    Ok (match copy_chunks never (S (S fuel)) {| k_x := in_copy stmt; k_e := r; k_out := [begin_copy stmt; []] |} chunks with
        | (s, Some q) => (s, q) | (s, None) => pq_complete1 never (S (S fuel)) (with_x s (set_messages (k_x s) PDone)) end).
Proof. reflexivity. Qed.
Lemma chunks_live fuel stmt r chunks : forall out, exists out', copy_chunks never (S fuel) {| k_x := in_copy stmt; k_e := r; k_out := out |} chunks =
  ({| k_x := in_copy stmt; k_e := r; k_out := out' |}, match lines_end chunks with None => None | Some er => Some (CpIter er) end).
Proof.
  induction chunks as [|er|c chunks IH]; intros out; cbn [copy_chunks lines_end]; [exists out; reflexivity|exists out; reflexivity|].
  pose proof (lines_of_spec c) as L. destruct (lines_of c) as [lines|er]; [|exists out; rewrite L; reflexivity]. destruct L as (-> & _).
  assert (E : send_lines never (S fuel) (with_x {| k_x := in_copy stmt; k_e := r; k_out := out |} (set_messages (in_copy stmt) (PList (map IRaw lines)))) =
     ({| k_x := in_copy stmt; k_e := r; k_out := out ++ [map IRaw lines] |}, None)) by (destruct fuel; reflexivity).
  cbn [k_x]. rewrite E. apply IH.
Qed.
(** With a server that does as it is told, every load of chunks which come to their end returns,
    for any number of chunks of any size. *)
Theorem C64_returns stmt tag chunks fuel : lines_end chunks = None ->
  exists s, load_copy never (S (S fuel)) stmt (obedient tag) chunks = Ok (s, CpDone).
Proof.
  intros L. unfold obedient. rewrite copy_started. destruct (chunks_live (S fuel) stmt [WBatch 2 [done tag; idle]] chunks [begin_copy stmt; []]) as (out & E).
  rewrite E, L. eexists. destruct fuel; reflexivity.
Qed.
(** The COPY's error is raised by the next operation, whatever it is about: a load whose iterable
    raised leaves it there. *)
Theorem C64_next_refuted stmt body chunks er fuel : lines_end chunks = Some er -> severity body false ->
  exists s, load_copy never (S (S fuel)) stmt (refusing body) chunks = Ok (s, CpIter er) /\
    exists s', next_operation never (S (S fuel)) s = (s', CpServer).
Proof.
  intros L (d & sv & P & A & U). unfold refusing. rewrite copy_started. destruct (chunks_live (S fuel) stmt [WBatch 2 [(69, body); idle]] chunks [begin_copy stmt; []]) as (out & E).
  rewrite E, L. eexists. split; [reflexivity|].
  assert (Up : err_fatal (MNotice true d) = Ok false) by (unfold err_fatal; rewrite A, (proj1 U eq_refl); reflexivity).
  assert (Pt : exists x', inst_put (set_state (set_messages (in_copy stmt) (PList [])) IPut) 2 [(69, body); idle] = (x', Ok 2) /\ i_state x' = IComplete /\ faulted x' = true).
  { unfold inst_put. cbn [i_state set_state]. unfold standard_put. cbn [i_last i_cur set_state set_messages in_copy Z.eqb Pos.eqb i_cmds set_async nth_error copy_cmds].
    change (cmd_paths (MExecute [] 1)) with (hook 69). cbn [hook Z.eqb Pos.eqb put_loop i_cmds nth_error].
    change (cmd_paths (MExecute [] 1)) with (hook 69). cbn [hook Z.eqb Pos.eqb nth_error lookup fst snd]. rewrite P, Up. eexists. split; [reflexivity|]. split; reflexivity. }
  destruct Pt as (x' & Pt & C & F).
  eexists. unfold next_operation, pq_complete1. cbn [finish_copy k_x in_copy i_state never send_step inst_sent i_messages].
  unfold copy_step. cbn [k_x k_e i_state set_state set_messages]. fold (in_copy stmt).
  match goal with |- context [inst_put ?y 2 _] => change y with (set_state (set_messages (in_copy stmt) (PList [])) IPut) end.
  rewrite Pt. destruct fuel; cbn [finish_copy k_x]; rewrite C; cbn [k_x]; rewrite F; reflexivity.
Qed.
Print Assumptions C64_all. Print Assumptions C64_sent. Print Assumptions C64_exception. Print Assumptions C64_not_copy.
Print Assumptions C64_returns. Print Assumptions C64_next_refuted.

(** ** Cases *)
Definition two_chunks : src (src bytes) := SCons (SCons [65; 10] (SCons [66; 10] SNil)) (SCons (SCons [67; 10] SNil) SNil).
Definition raising_chunks : src (src bytes) := SCons (SCons [65; 10] (SCons [66; 10] SNil)) (SCons (SCons [67; 10] (SRaise ValueError)) SNil).
Definition an_error : bytes := [83; 69; 82; 82; 79; 82; 0; 77; 120; 0; 0].
Definition outcome (r : res (cst * cpres)) : option (list item * cpres) := match r with Ok (s, q) => Some (sent s, q) | Err _ => None end.
Example two_chunks_loaded : outcome (load_copy never 5 [115] (obedient [67; 79; 80; 89]) two_chunks) =
  Some (begin_copy [115] ++ [IRaw [65; 10]; IRaw [66; 10]; IRaw [67; 10]] ++ end_copy, CpDone).
Proof. reflexivity. Qed.
Example batches_ok tag : batches_differ 0 (obedient tag). Proof. repeat split; discriminate. Qed.
Example raising_loaded : outcome (load_copy never 5 [115] (refusing an_error) raising_chunks) =
  Some (begin_copy [115] ++ [IRaw [65; 10]; IRaw [66; 10]], CpIter ValueError).
Proof. reflexivity. Qed.
Example an_error_severity : severity an_error false.
Proof. eexists. eexists. split; [reflexivity|]. split; [reflexivity|]. split; reflexivity. Qed.
(** the connection is lost with the second chunk *)
Definition lost_third (i : nat) : option nat := match i with O | 1%nat | 2%nat => None | 3%nat => Some 1%nat | _ => Some O end.
Example lost_third_law : lost_for_good lost_third.
Proof. intros i j n H L. destruct i as [|[|[|[|i]]]], j as [|[|[|[|j]]]]; try discriminate; try lia; reflexivity. Qed.
Example lost_loaded : outcome (load_copy lost_third 5 [115] (obedient []) (SCons (SCons [65] SNil) (SCons (SCons [66] (SCons [67] SNil)) SNil))) =
  Some (begin_copy [115] ++ [IRaw [65]; IRaw [66]], CpServer).
Proof. reflexivity. Qed.
(** a statement that is not a COPY *)
Example not_copy_loaded : outcome (load_copy never 5 [115] [WBatch 1 [bind_ok; done [68; 69; 76]; idle]] two_chunks) = Some (begin_copy [115], CpNotCopy).
Proof. reflexivity. Qed.
