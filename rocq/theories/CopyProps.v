(** CopyProps.v: C40, C41. *)
From Verif Require Import Base BaseProof PBufferModel PBufferSpec PBufferProof Element3Model CopyModel CopySpec CopyProof CopyProof2 CopyProof3 CopyProof4.

(** ** C40 *)
(** however the stream is cut, the messages counted are those which are complete *)
Theorem C40_count : forall ms t chunks, Forall line_ok ms -> unfinished t -> concat chunks = copy_frames ms ++ t ->
  exists s, wire_run wire_init chunks = Ok (len ms, s) /\ w_final s = None.
Proof.
  intros ms t chunks F T E. exists (at_state t). split; [|apply at_final]. exact (run_at chunks [] ms t unfinished_nil E F T).
Qed.
Print Assumptions C40_count.

Lemma run_app a : forall s b n s', wire_run s a = Ok (n, s') -> wire_run s (a ++ b) = (do r <- wire_run s' b; Ok (n + fst r, snd r)).
Proof.
  induction a as [|c a IH]; intros s b n s' E.
  - cbn in E. injection E as <- <-. cbn. destruct (wire_run s b) as [[? ?]|]; reflexivity.
  - cbn [app wire_run] in *. destruct (wire_update s c) as [[n1 s1]|]; [|discriminate]. cbn [bind fst snd] in *.
    destruct (wire_run s1 a) as [[n2 s2]|] eqn:Q; [|discriminate]. cbn in E. injection E as <- <-. rewrite (IH _ _ _ _ Q).
    destruct (wire_run s2 b) as [[n3 s3]|]; cbn; [|reflexivity]. f_equal. f_equal. lia.
Qed.
(** it stops at the first other message, and gives back the bytes from there on *)
Theorem C40_end : forall ms t chunks c, Forall line_ok ms -> other_message t ->
  concat (chunks ++ [c]) = copy_frames ms ++ t -> (length (concat chunks) <= length (copy_frames ms))%nat ->
  exists s, wire_run wire_init (chunks ++ [c]) = Ok (len ms, s) /\ w_final s = Some t.
Proof.
  intros ms t chunks c F T E L. rewrite concat_app in E. cbn in E. rewrite app_nil_r in E.
  destruct (app_pre _ _ _ _ E L) as (e & Ee & ->).
  destruct (prefix_split ms (concat chunks) e [] ltac:(now rewrite app_nil_r) F (or_introl unfinished_nil)) as (ms1 & ms2 & x & -> & E1 & Ux & E2).
  apply Forall_app in F as (F1 & F2). rewrite app_nil_r in E2.
  exists {| w_rem := 0; w_frag := []; w_final := Some t |}. split; [|reflexivity].
  rewrite (run_app _ _ _ _ _ (run_at chunks [] ms1 x unfinished_nil E1 F1 Ux)). cbn [wire_run].
  rewrite (update_at x (e ++ t) ms2 t _ Ux ltac:(rewrite app_assoc, E2; reflexivity) F2 (or_intror (conj T eq_refl))). cbn [bind fst snd]. rewrite len_app. f_equal. f_equal. lia.
Qed.
Print Assumptions C40_end.

(** after it stopped, it accepts nothing *)
Theorem C40_after_end : forall s t view, w_final s = Some t -> wire_update s view = Err RuntimeError.
Proof. intros s t view E. unfold wire_update. now rewrite E. Qed.
Print Assumptions C40_after_end.

(** the producer: while the COPY goes on, it gives what it received, and counts it *)
Theorem C40_producer : forall p ms t first chunks, Forall line_ok ms -> unfinished t -> concat (first :: chunks) = copy_frames ms ++ t ->
  exists p', produce p first chunks = Ok (p', first :: chunks) /\
    p_msgs p' = p_msgs p + len ms /\ p_bytes p' = p_bytes p + len (concat (first :: chunks)) /\ p_recovered p' = p_recovered p /\ p_next p' = NRecv.
Proof.
  intros p ms t first chunks F T E. rewrite produce_recv.
  destruct (recv_more (first :: chunks) {| p_state := Some wire_init; p_msgs := p_msgs p; p_bytes := p_bytes p; p_next := NRecv; p_recovered := p_recovered p |} [] ms t) as (p' & R & (_ & N) & M & B & Re); auto.
  - split; reflexivity.
  - apply unfinished_nil.
  - exists p'. auto.
Qed.
Print Assumptions C40_producer.

(** at the end, it gave exactly the messages of the COPY; the connection gets exactly the rest *)
Theorem C40_producer_end : forall p ms t first chunks c, Forall line_ok ms -> other_message t ->
  concat (first :: chunks ++ [c]) = copy_frames ms ++ t -> (length (concat (first :: chunks)) <= length (copy_frames ms))%nat ->
  exists p' views, produce p first (chunks ++ [c]) = Ok (p', views) /\ concat views = copy_frames ms /\
    p_msgs p' = p_msgs p + len ms /\ p_bytes p' = p_bytes p + len (copy_frames ms) /\ p_recovered p' = p_recovered p ++ t /\ p_next p' = NConfiscate.
Proof.
  intros p ms t first chunks c F T E L. change (first :: chunks ++ [c]) with ((first :: chunks) ++ [c]) in E. rewrite concat_app in E. cbn [concat] in E. rewrite app_nil_r in E.
  destruct (app_pre _ _ _ _ E L) as (e & Ee & ->).
  destruct (prefix_split ms (concat (first :: chunks)) e [] ltac:(now rewrite app_nil_r) F (or_introl unfinished_nil)) as (ms1 & ms2 & x & -> & E1 & Ux & E2).
  apply Forall_app in F as (F1 & F2). rewrite app_nil_r in E2.
  rewrite produce_recv. change (first :: chunks ++ [e ++ t]) with ((first :: chunks) ++ [e ++ t]).
  destruct (recv_more (first :: chunks) {| p_state := Some wire_init; p_msgs := p_msgs p; p_bytes := p_bytes p; p_next := NRecv; p_recovered := p_recovered p |} [] ms1 x) as (p1 & R & Rt & M & B & Re); auto.
  { split; reflexivity. } { apply unfinished_nil. }
  rewrite (recv_app _ _ _ _ _ R).
  destruct (process_end p1 x (e ++ t) ms2 t Rt Ux ltac:(rewrite app_assoc, E2; reflexivity) F2 T) as (p2 & v & Q & Ev & M2 & B2 & Re2 & S2 & N2).
  cbn [recv_run]. destruct Rt as (_ & Nx). rewrite Nx, Q. cbn [bind fst snd recv_run].
  exists p2, ((first :: chunks) ++ [v]). split; [reflexivity|]. rewrite concat_app. cbn [concat]. rewrite app_nil_r.
  assert (Ex : e = v) by (rewrite <- Ev in E2; now apply app_inv_head in E2). subst v. rewrite Ee.
  split; [reflexivity|]. cbn [p_msgs p_bytes p_recovered] in *. rewrite !len_app in *. cbn [concat] in *. rewrite ?len_app in *.
  split; [lia|]. split; [lia|]. split; [congruence|exact N2].
Qed.
Print Assumptions C40_producer_end.

(** a COPY abandoned in the middle of a message [l0] (of which [r] is still to come): the
    receivers get the end of a message; with [r], the connection gets a message *)
Theorem C40_realign : forall p ms t first chunks, Forall line_ok ms -> unfinished t -> concat (first :: chunks) = copy_frames ms ++ t ->
  exists p1 p2 l d, produce p first chunks = Ok (p1, first :: chunks) /\ realign p1 = Ok p2 /\ p_next p2 = NIter l /\
    p_recovered p2 = p_recovered p ++ d /\
    (exists ls, Forall line_ok ls /\ concat (first :: chunks) ++ concat l = copy_frames ls) /\
    (forall l0 r, line_ok l0 -> frame (100, l0) = t ++ r -> exists s, line_ok s /\ d ++ r = frame (100, s)).
Proof.
  intros p ms t first chunks F T E. rewrite produce_recv.
  destruct (recv_more (first :: chunks) {| p_state := Some wire_init; p_msgs := p_msgs p; p_bytes := p_bytes p; p_next := NRecv; p_recovered := p_recovered p |} [] ms t) as (p1 & R & Rt & M & B & Re); auto.
  { split; reflexivity. } { apply unfinished_nil. }
  destruct (realign_at p1 t Rt T) as (p2 & l & d & Q1 & Q2 & Q3 & (ls & Fl & El) & Q5).
  exists p1, p2, l, d. split; auto. split; auto. split; auto. split; [now rewrite Q3, Re|]. split; auto.
  exists (ms ++ ls). split; [apply Forall_app; auto|]. rewrite E, <- app_assoc, El. symmetry. apply copy_app.
Qed.
Print Assumptions C40_realign.

(** the lines given to a callable: those of the messages completed, once, in order *)
Theorem C40_lines : forall ms t chunks, Forall line_ok ms -> unfinished t -> Forall is_bytes chunks -> len ms < 4294967295 ->
  concat chunks = copy_frames ms ++ t -> exists r, lines_run pb_init chunks = Ok r /\ concat r = ms /\ length r = length chunks.
Proof. intros ms t chunks F T B L E. exact (lines_at chunks pb_init [] ms t Inv_init unfinished_nil B E F T L). Qed.
Print Assumptions C40_lines.

(** three lines cut in the middle of headers and of lines, then CommandComplete *)
Example C40_ex :
  let ms := [[49; 10]; []; [50; 9; 51; 10]] in let t := [67; 0; 0; 0; 8; 65; 65; 0; 90] in
  let s := copy_frames ms ++ t in
  produce producer_init (firstn 3 s) [firstn 9 (skipn 3 s); firstn 1 (skipn 12 s); skipn 13 s] =
  Ok ({| p_state := None; p_msgs := 3; p_bytes := 21; p_next := NConfiscate; p_recovered := t |},
      [[100; 0; 0]; [0; 6; 49; 10; 100; 0; 0; 0; 4]; [100]; [0; 0; 0; 8; 50; 9; 51; 10]]).
Proof. vm_compute. reflexivity. Qed.
Example C40_ex_realign :
  let s := copy_frames [[49; 10]] ++ firstn 7 (frame (100, [50; 9; 51; 10])) in
  match produce producer_init s [] with
  | Ok (p, _) => match realign p with Ok p => (p_next p, p_recovered p) | Err _ => (NRecv, []) end
  | Err _ => (NRecv, [])
  end = (NIter [[0; 0]], [100; 0; 0; 0; 6]).
Proof. vm_compute. reflexivity. Qed.

(** ** C41 *)
(** a receiver which is in the set whenever data is distributed got everything, in order,
    except what it still holds; whatever the others do *)
Theorem C41_all_data : forall rs g tr i r0, Forall fresh_recv rs -> crun rs g tr -> nth_error rs i = Some r0 -> attended i true tr ->
  exists r, nth_error (g_all g) i = Some (present i true tr, r) /\
    match r0, r with
    | RNull, RNull => True
    | RWire _ _, RWire v sent => sent ++ content (g_buf g) v = bytes_of tr
    | RCall _ _, RCall ls calls => calls ++ pending_lines ls = lines_of tr
    | _, _ => False
    end.
Proof.
  intros rs g tr i r0 F R E A. destruct (crun_inv _ _ _ F R) as (I & _). specialize (I i). rewrite E in I. destruct I as (r & Q & K & H & _).
  exists r. split; auto. specialize (H A). destruct r0, r; cbn in *; auto.
Qed.
Print Assumptions C41_all_data.

(** as long as it is in the set, it holds nothing back *)
Theorem C41_in_set : forall rs g tr i r0, Forall fresh_recv rs -> crun rs g tr -> nth_error rs i = Some r0 -> attended i true tr -> present i true tr = true ->
  exists r, nth_error (g_all g) i = Some (true, r) /\ got r (bytes_of tr) (lines_of tr).
Proof.
  intros rs g tr i r0 F R E A P. destruct (crun_inv _ _ _ F R) as (I & _). specialize (I i). rewrite E in I. destruct I as (r & Q & K & H & Em).
  rewrite P in Q. exists r. split; auto. specialize (H A). specialize (Em A P). destruct r as [|v sent|ls calls]; cbn in *; auto.
  - now rewrite Em, app_nil_r in H.
  - subst ls. now rewrite app_nil_r in H.
Qed.
Print Assumptions C41_in_set.

(** a receiver which is not tried again got a prefix *)
Theorem C41_prefix : forall rs g tr i b r, Forall fresh_recv rs -> crun rs g tr -> not_tried i tr -> nth_error (g_all g) i = Some (b, r) ->
  exists sent rest calls rest', got r sent calls /\ sent ++ rest = bytes_of tr /\ calls ++ rest' = lines_of tr.
Proof.
  intros rs g tr i b r F R N E. pose proof (prefix_inv _ _ _ F R i N) as P. rewrite E in P.
  assert (Q : pre (bytes_of tr) (lines_of tr) r).
  { destruct b; [|exact P]. destruct (crun_inv _ _ _ F R) as (I & _). specialize (I i). destruct (nth_error rs i) as [r0|] eqn:E0; [|congruence].
    destruct I as (r1 & Q & _ & H & _). rewrite E in Q. injection Q as _ <-. eapply holds_pre; eauto. }
  destruct r as [|v sent|ls calls]; cbn in *.
  - exists [], (bytes_of tr), [], (lines_of tr). auto.
  - destruct Q as (x & Q). exists sent, x, [], (lines_of tr). auto.
  - destruct Q as (x & Q). exists [], (bytes_of tr), calls, x. auto.
Qed.
Print Assumptions C41_prefix.

(** the receivers reported are exactly those of the set whose transmission raised; they, and
    no others, leave the set.  [r1]: the receiver with the data it was given *)
Theorem C41_faults : forall g o script g' f, mgr_next g o script = (g', GReceiverFault f) ->
  f <> [] /\
  (forall i, nth_error (g_all g) i = None -> nth_error (g_all g') i = None /\ ~ List.In i f) /\
  (forall i r, nth_error (g_all g) i = Some (false, r) -> nth_error (g_all g') i = Some (false, r) /\ ~ List.In i f) /\
  (forall i r, nth_error (g_all g) i = Some (true, r) -> exists r1 r2 t,
     transmit (g_buf g') r1 (script i) = (r2, t) /\
     ((t = TOk /\ nth_error (g_all g') i = Some (true, r2) /\ ~ List.In i f) \/
      (t = TFail /\ nth_error (g_all g') i = Some (false, r2) /\ List.In i f))).
Proof.
  intros g o script g' f E. destruct (next_data _ _ _ _ _ E) as (g1 & b & l & v & l' & f' & SP & Ch & G & W & TA & G' & B' & Cf); try (intros; discriminate).
  destruct Cf as [(_ & s & Q)|(Nf & Q)]; [discriminate|]. injection Q as <-. split; auto.
  destruct (transmit_all_ok _ _ _ _ _ _ TA) as (A & _). rewrite G' in *. rewrite B'. split; [|split].
  - intros i Q. specialize (A i). rewrite G, nth_error_map, Q in A. cbn in A. rewrite discard_nth, A. split; auto.
    intros H. pose proof (transmit_all_bound _ _ _ _ _ _ TA i H) as L. rewrite G, map_length in L. cbn in L.
    apply nth_error_None in Q. lia.
  - intros i r Q. specialize (A i). rewrite G, nth_error_map, Q in A. cbn [option_map] in A. cbn [Nat.add] in A.
    replace (accept v (if existsb is_call (g_all g) then l else []) (false, r)) with (false, r) in A by (destruct r; reflexivity). destruct A as (A1 & A2).
    rewrite discard_nth, A1. auto.
  - intros i r Q. specialize (A i). rewrite G, nth_error_map, Q in A. cbn [option_map] in A. cbn [Nat.add] in A.
    assert (exists r1, accept v (if existsb is_call (g_all g) then l else []) (true, r) = (true, r1)) as (r1 & Er) by (destruct r; cbn; eauto).
    rewrite Er in A. destruct A as (r2 & t & A1 & A2 & A3). exists r1, r2, t. split; auto. rewrite discard_nth, A1. cbn [Nat.add].
    destruct A3 as [(-> & N)|(-> & N)]; [left|right]; split; auto; split; auto.
    + destruct (existsb (Nat.eqb i) f) eqn:X; [apply existsb_In in X; contradiction|reflexivity].
    + apply existsb_In in N. now rewrite N.
Qed.
Print Assumptions C41_faults.

(** what the iterations report, and what is kept for the next report, is the total *)
Theorem C41_progress : forall rs g tr, Forall fresh_recv rs -> crun rs g tr ->
  fst (reported tr) + fst (g_stats g) = fst (g_tot g) /\ snd (reported tr) + snd (g_stats g) = snd (g_tot g).
Proof. intros rs g tr F R. exact (proj2 (crun_inv _ _ _ F R)). Qed.
Print Assumptions C41_progress.

(** a COPY is reported as done only if: no exception was raised; the producer gave its end (or
    its realignment nothing) and its exit, and those of the receivers, did not raise; there is a
    receiver *)
Theorem C41_done : forall g typ al o pexit rexit g', mgr_exit g typ al o pexit rexit = (g', XOk) ->
  typ = None /\ al = false /\ pexit = false /\ g_seen g' = true /\ (g_seen g = true \/ o = PStop) /\
  (exists i r, nth_error (g_all g') i = Some (true, r)) /\
  (forall i r, nth_error (g_all g') i = Some (true, r) -> rexit i = false).
Proof.
  intros g typ al o pexit rexit g'. unfold mgr_exit.
  assert (Fin : forall g1 profail, (if negb (has_receivers g1) then (g1, XFail) else
      if match typ with Some _ => true | None => false end || existsb (fun x => fst (snd x) && rexit (fst x)) (combine (seq 0 (length (g_all g1))) (g_all g1)) || profail || negb (g_seen g1)
      then (g1, XFail) else (g1, XOk)) = (g', XOk) ->
      g1 = g' /\ profail = false /\ typ = None /\ g_seen g' = true /\ (exists i r, nth_error (g_all g') i = Some (true, r)) /\ (forall i r, nth_error (g_all g') i = Some (true, r) -> rexit i = false)).
  { intros g1 pf. destruct (has_receivers g1) eqn:Hr; cbn [negb]; [|discriminate].
    destruct (_ || negb (g_seen g1)) eqn:B; [discriminate|]. intros [= <-]. apply orb_false_iff in B as (B & S). apply orb_false_iff in B as (B & P). apply orb_false_iff in B as (T & X).
    split; auto. split; auto. split; [destruct typ; [discriminate|auto]|]. split; [now apply negb_false_iff in S|]. split.
    - apply existsb_exists in Hr as ([b r] & H & Hb). cbn in Hb. subst b. apply In_nth_error in H as (i & H). eauto.
    - intros i r Hi. destruct (rexit i) eqn:Ri; auto. exfalso.
      assert (C : existsb (fun x : nat * (bool * recv) => fst (snd x) && rexit (fst x)) (combine (seq 0 (length (g_all g1))) (g_all g1)) = true); [|congruence].
      apply existsb_exists. exists (i, (true, r)). split; [|cbn; auto]. clear - Hi.
      assert (Q : forall n (l : list (bool * recv)) i, nth_error l i = Some (true, r) -> List.In ((n + i)%nat, (true, r)) (combine (seq n (length l)) l)).
      { intros n l. revert n. induction l as [|y l IH]; intros n [|j] E; try discriminate; cbn [length seq combine].
        - cbn in E. injection E as ->. left. now rewrite Nat.add_0_r.
        - right. rewrite <- Nat.add_succ_comm. now apply IH. }
      exact (Q 0%nat _ _ Hi). }
  intros H.
  assert (H' : typ <> Some false /\ (if al then (g, Some true) else match service_producer g o with
                  | (g, Some GStop) | (g, None) => (g, Some pexit)
                  | (g, Some GInterrupt) => (g, None)
                  | (g, Some _) => (g, Some true) end) = (g', Some false)).
  { destruct typ as [[|]|]; [| discriminate|].
    - destruct (if al then _ else _) as [g1 [pf|]]; [|discriminate]. destruct (Fin g1 pf H) as (_ & _ & Q & _). discriminate.
    - split; [discriminate|]. destruct (if al then _ else _) as [g1 [pf|]]; [|discriminate]. destruct (Fin g1 pf H) as (-> & -> & _). reflexivity. }
  destruct H' as (Nt & Q).
  assert (H2 : typ = None /\ g_seen g' = true /\ (exists i r, nth_error (g_all g') i = Some (true, r)) /\ (forall i r, nth_error (g_all g') i = Some (true, r) -> rexit i = false)).
  { destruct typ as [[|]|]; [| congruence |]; rewrite Q in H; destruct (Fin g' false H) as (_ & _ & T & A & B); auto. }
  destruct H2 as (T & Sn & Ex & Al). split; auto. destruct al; [discriminate|]. split; auto.
  assert (P : pexit = false /\ (g_seen g = true \/ o = PStop)).
  { unfold service_producer in Q. destruct (negb (has_receivers g)).
    - injection Q as -> ->. auto.
    - destruct o as [buf v n|l| | |].
      + destruct (existsb is_call (g_all g)); [destruct (chunk_protocol _ _) as [? [?|?]]|]; injection Q as <- Q; try discriminate; auto.
      + destruct (existsb is_wire _); [destruct (cat_messages _)|]; injection Q as <- Q; try discriminate; auto.
      + injection Q as <- Q. auto.
      + discriminate.
      + discriminate. }
  destruct P as (P1 & P2). split; auto.
Qed.
Print Assumptions C41_done.

(** two tables and a callable; the first table takes 3 bytes, then its socket raises; it is brought back
    before the next data, and gets everything *)
Definition ex_buf1 : bytes := copy_frames [[49; 10]; [50; 10]].
Definition ex_buf2 : bytes := copy_frames [[51; 10]].
Definition ex_rs := [RWire (VOwn []) []; RWire (VOwn []) []; RCall None []].
Definition ex_step1 := mgr_next (mgr_init ex_rs) (PWire ex_buf1 (VBuf 0 14) 2) (fun i => if (i =? 0)%nat then [Sent 3; SFail] else [Sent 100]).
Definition ex_step2 := reconcile (fst ex_step1) 0 [Sent 5; Sent 100].
Definition ex_step3 := mgr_next (fst ex_step2) (PWire ex_buf2 (VBuf 0 7) 1) (fun _ => [Sent 100]).
Example C41_ex_run : crun ex_rs (fst ex_step3) [EChunk ex_buf1 [[49; 10]; [50; 10]]; EFaults [0%nat]; EBack 0; EChunk ex_buf2 [[51; 10]]; EStats (3, 21)] /\
  Forall fresh_recv ex_rs.
Proof.
  split; [|unfold ex_rs; apply Forall_forall; intros r [<-|[<-|[<-|[]]]]; unfold fresh_recv; auto].
  refine (cr_ok ex_rs (fst ex_step2) [EChunk ex_buf1 [[49; 10]; [50; 10]]; EFaults [0%nat]; EBack 0] (PWire ex_buf2 (VBuf 0 7) 1) (fun _ => [Sent 100]) (fst ex_step3) (3, 21) _ _).
  - refine (cr_back ex_rs (fst ex_step1) [EChunk ex_buf1 [[49; 10]; [50; 10]]; EFaults [0%nat]] 0 [Sent 5; Sent 100] (fst ex_step2) _ _).
    + refine (cr_fault ex_rs (mgr_init ex_rs) [] (PWire ex_buf1 (VBuf 0 14) 2) (fun i => if (i =? 0)%nat then [Sent 3; SFail] else [Sent 100]) (fst ex_step1) [0%nat] _ _).
      * constructor.
      * vm_compute. reflexivity.
    + vm_compute. reflexivity.
  - vm_compute. reflexivity.
Qed.
Example C41_ex : map (fun x => match x with (true, RWire _ s) => s | _ => [] end) (g_all (fst ex_step3)) = [ex_buf1 ++ ex_buf2; ex_buf1 ++ ex_buf2; []].
Proof. vm_compute. reflexivity. Qed.

(** Refuted: "a receiver brought back continues where it stopped".  When other data was
    distributed in between, the buffer of the producer was overwritten: what is sent is not data
    of the COPY; and the data distributed in between is never sent. *)
Theorem C41_late_reconcile_refuted :
  ~ (forall rs g tr i r0, Forall fresh_recv rs -> crun rs g tr -> nth_error rs i = Some r0 ->
     exists b r, nth_error (g_all g) i = Some (b, r) /\ exists sent calls rest rest', got r sent calls /\ sent ++ rest = bytes_of tr /\ calls ++ rest' = lines_of tr).
Proof.
  intros H.
  set (s2 := mgr_next (fst ex_step1) (PWire ex_buf2 (VBuf 0 7) 1) (fun _ => [Sent 100])).
  set (s3 := reconcile (fst s2) 0 [Sent 100]).
  assert (R : crun ex_rs (fst s3) [EChunk ex_buf1 [[49; 10]; [50; 10]]; EFaults [0%nat]; EChunk ex_buf2 [[51; 10]]; EStats (3, 21); EBack 0]).
  { refine (cr_back ex_rs (fst s2) [EChunk ex_buf1 [[49; 10]; [50; 10]]; EFaults [0%nat]; EChunk ex_buf2 [[51; 10]]; EStats (3, 21)] 0 [Sent 100] (fst s3) _ _).
    - refine (cr_ok ex_rs (fst ex_step1) [EChunk ex_buf1 [[49; 10]; [50; 10]]; EFaults [0%nat]] (PWire ex_buf2 (VBuf 0 7) 1) (fun _ => [Sent 100]) (fst s2) (3, 21) _ _).
      + refine (cr_fault ex_rs (mgr_init ex_rs) [] (PWire ex_buf1 (VBuf 0 14) 2) (fun i => if (i =? 0)%nat then [Sent 3; SFail] else [Sent 100]) (fst ex_step1) [0%nat] _ _).
        * constructor.
        * vm_compute. reflexivity.
      + vm_compute. reflexivity.
    - vm_compute. reflexivity. }
  destruct (H ex_rs _ _ 0%nat _ (proj2 C41_ex_run) R eq_refl) as (b & r & E & sent & calls & rest & rest' & G & S & _).
  vm_compute in E. injection E as <- <-. cbn in G. subst sent. vm_compute in S. discriminate.
Qed.
Print Assumptions C41_late_reconcile_refuted.

(** Refuted: "a COPY which was abandoned is never reported as done".  When it is left (without an
    exception) on the boundary of a message and the exit of the producer does not raise, the end of
    the realignment counts as the end of the producer. *)
Theorem C41_abandoned_refuted :
  ~ (forall rs g tr typ al o pexit rexit g', Forall fresh_recv rs -> crun rs g tr -> g_seen g = false ->
     mgr_exit g typ al o pexit rexit <> (g', XOk)).
Proof.
  intros H. refine (H ex_rs (fst ex_step3) _ None false PStop false (fun _ => false) (set_seen (fst ex_step3)) (proj2 C41_ex_run) (proj1 C41_ex_run) _ _); vm_compute; reflexivity.
Qed.
Print Assumptions C41_abandoned_refuted.
(** the producer in question: a COPY of which a complete message was received, realigned *)
Example C41_abandoned_ex : match produce producer_init (copy_frames [[49; 10]]) [] with
  | Ok (p, _) => match realign p with Ok p => realigned_next p [] | Err _ => PRaise end
  | Err _ => PRaise
  end = PStop.
Proof. vm_compute. reflexivity. Qed.

(** Refuted: "after an interrupt (BaseException) of a transmission, the others get their data":
    the data of the receivers after it is replaced by the next iteration *)
Theorem C41_interrupted_refuted :
  ~ (forall rs o1 o2 script1 script2 g1 g2 s i r, Forall fresh_recv rs ->
     mgr_next (mgr_init rs) o1 script1 = (g1, GInterrupt) -> mgr_next g1 o2 script2 = (g2, GOk s) -> nth_error (g_all g2) i = Some (true, r) ->
     got r (bytes_of (chunk_of (mgr_init rs) o1 ++ chunk_of g1 o2)) (lines_of (chunk_of (mgr_init rs) o1 ++ chunk_of g1 o2))).
Proof.
  intros H.
  set (o1 := PWire ex_buf1 (VBuf 0 14) 2). set (o2 := PWire ex_buf2 (VBuf 0 7) 1).
  set (sc1 := fun i : nat => if (i =? 0)%nat then [Sent 3; SInterrupt] else [Sent 100]). set (sc2 := fun _ : nat => [Sent 100]).
  set (g1 := fst (mgr_next (mgr_init ex_rs) o1 sc1)). set (g2 := fst (mgr_next g1 o2 sc2)).
  assert (E : nth_error (g_all g2) 1 = Some (true, RWire (VBuf 100 0) ex_buf2)) by (vm_compute; reflexivity).
  assert (Q := H ex_rs o1 o2 sc1 sc2 g1 g2 (3, 21) 1%nat _ (proj2 C41_ex_run) ltac:(vm_compute; reflexivity) ltac:(vm_compute; reflexivity) E).
  vm_compute in Q. discriminate.
Qed.
Print Assumptions C41_interrupted_refuted.
