(** FirstProps.v: C65, Statement.first() *)
From Verif Require Import Base BaseProof PBufferModel Element3Model Element3Proof NegModel NegSpec InstModel InstSpec InstProof InstProof2 InstProof3.
From Verif Require Import InstProps IterModel IterSpec IterProof FetchModel FetchSpec FetchProof FetchProof2 FetchProof3 FetchProof4 FirstModel FirstSpec FirstProof FirstProof2.

Section C65.
  Context {V : Type} (p : pstmt V).
  Lemma first_starts params : starts (first_cmds p params).
  Proof. eexists. eexists. split; [reflexivity|discriminate]. Qed.

  (** What first() gives is what the server's whole and errorless answer to the request with the
      packed parameters says: the first row, or the count or the command. *)
  Theorem C65_result fuel parameters e e' v : readable 0 e -> first fuel p parameters e = (e', FoVal v) ->
    exists params n, all_converted (ps_input p) parameters params /\
      conv (first_request p params) (sync_part (firstn n (wire_msgs e))) None /\ first_of p (firstn n (wire_msgs e)) v.
  Proof.
    intros R E. unfold first in E. destruct (negb _); [discriminate|]. destruct (process_tuple (ps_input p) parameters (ps_perr p)) as [params|] eqn:P; [|discriminate].
    apply all_converted_pt in P. destruct (inst_init (first_cmds p params)) as [x|] eqn:I; [|discriminate].
    destruct (pq_complete fuel x e) as [[x' e1] r] eqn:Q.
    pose proof (pq_complete_inv _ (first_starts params) e 0 [] fuel x e x' e1 r (inv_init _ _ R _ I) Q) as (Iv & D & _).
    destruct r as [[]| | |]; try discriminate. destruct (D eq_refl) as (C & F). injection E as _ E.
    destruct (inv_sound _ (first_starts params) _ _ _ _ _ Iv F) as (g & tr & left & Ex & H & _ & _ & W & Fg & M & _ & _). rewrite cut_0 in Ex. subst g.
    apply complete_true in C. destruct (C25_complete _ _ _ H C Fg) as (Cv & _).
    exists params, (length (recvd tr)). rewrite W, firstn_firstn_app, firstn_all by lia. split; [exact P|]. split; [exact Cv|]. eapply result_sound; eauto.
  Qed.
  (** Nothing is asked of the server when the parameters do not fit the statement. *)
  Theorem C65_parameters fuel parameters e : (forall params, ~ all_converted (ps_input p) parameters params) ->
    exists er, first fuel p parameters e = (e, FoRaise er) /\ (length parameters <> length (ps_input p) -> er = TypeError).
  Proof.
    intros N. unfold first. destruct (negb _) eqn:L.
    - exists TypeError. split; reflexivity.
    - destruct (process_tuple (ps_input p) parameters (ps_perr p)) as [params|er] eqn:P.
      + apply all_converted_pt in P. destruct (N _ P).
      + exists er. split; [reflexivity|]. intros Q. apply negb_false_iff, Z.eqb_eq in L. unfold len in L. lia.
  Qed.
  (** There is one such result. *)
  Theorem C65_determined l v w : first_of p l v -> first_of p l w -> v = w.
  Proof. apply first_of_det. Qed.
  Lemma first_run fuel parameters params e g : readable 0 e -> never_lost e -> all_converted (ps_input p) parameters params ->
    conv (first_request p params) (sync_part (wire_msgs e)) g -> (4 * length e + 4 <= fuel)%nat ->
    exists e' M, first fuel p parameters e = (e', match g with None => first_result p M | Some _ => FoServer end) /\
      (g = None -> Forall2 msg_is (sync_part (wire_msgs e)) M).
  Proof.
    intros R NL P HV Hf.
    assert (L : negb (len parameters =? len (ps_input p)) = false).
    { destruct P as (P1 & _). unfold len. rewrite P1, Z.eqb_refl. reflexivity. }
    assert (P' := proj2 (all_converted_pt (ps_input p) parameters (ps_perr p) params) P).
    unfold first. rewrite L, P'. destruct (inst_init (first_cmds p params)) as [x|] eqn:I; [|discriminate I].
    assert (Mu : (mu x e <= fuel)%nat) by (unfold mu; cbn in I; injection I as <-; cbn [weight i_state]; lia).
    destruct (gen_complete _ (first_starts params) e NL g HV fuel x e (inv_init _ _ R _ I) Mu) as (x' & e' & Q & Iv & C).
    destruct (gen_fatal _ (first_starts params) e NL g HV x' e' Iv C) as (Fg & tr & H & Sy).
    unfold pq_complete. rewrite Q. unfold faulted. rewrite Fg. exists e', (messages_received x'). destruct g as [b|]; [split; [reflexivity|discriminate]|]. split; [reflexivity|]. intros _.
    apply complete_true in C. destruct (C25_complete _ _ _ H C Fg) as (_ & M). now rewrite Sy in M.
  Qed.
  (** When the server's answer arrives without an error, in whatever batches, first() gives exactly
      what is in it.  If it gives nothing it raises: a column of the row cannot be converted. *)
  Theorem C65_answered fuel parameters params e : readable 0 e -> never_lost e -> all_converted (ps_input p) parameters params ->
    conv (first_request p params) (sync_part (wire_msgs e)) None -> (4 * length e + 4 <= fuel)%nat ->
    Forall (fun x => Forall (fun c => 0 <= c < 128) (snd x)) (tags_in (wire_msgs e)) ->
    (forall v, snd (first fuel p parameters e) = FoVal v <-> first_of p (wire_msgs e) v) /\
    ((exists v, snd (first fuel p parameters e) = FoVal v) \/ exists er, snd (first fuel p parameters e) = FoRaise er).
  Proof.
    intros R NL P HV Hf As. destruct (first_run _ _ _ _ _ R NL P HV Hf) as (e' & M & -> & F). specialize (F eq_refl). cbn [snd]. split.
    - intros v. split; [apply result_sound, F|apply result_complete; auto].
    - unfold first_result. destruct (ps_output p) as [|io [|io2 ios]].
      + destruct (first_complete M); [|eauto]. destruct (extract_count _); [eauto|]. destruct (extract_command _); [|eauto]. destruct (ascii_decode _); eauto.
      + destruct (first_tuple M) as [[|[d|] t]|]; eauto. destruct (io d); eauto.
      + destruct (first_tuple M); [|eauto]. destruct (process_tuple _ _ _); eauto.
  Qed.
  (** The server's error is raised. *)
  Theorem C65_error fuel parameters params e b : readable 0 e -> never_lost e -> all_converted (ps_input p) parameters params ->
    conv (first_request p params) (sync_part (wire_msgs e)) (Some b) -> (4 * length e + 4 <= fuel)%nat ->
    snd (first fuel p parameters e) = FoServer.
  Proof. intros R NL P HV Hf. destruct (first_run _ _ _ _ _ R NL P HV Hf) as (e' & M & -> & _). reflexivity. Qed.
End C65.
Print Assumptions C65_result. Print Assumptions C65_parameters. Print Assumptions C65_determined. Print Assumptions C65_answered. Print Assumptions C65_error.

(** ** Cases *)
Definition as_bytes (b : bytes) : res bytes := Ok b.
Definition hndl : @handler := fun e _ => Some e.
Definition stmt_with (out : list (bytes -> res bytes)) : pstmt bytes :=
  {| ps_id := [115]; ps_iformats := [[0; 1]]; ps_oformats := []; ps_input := [as_bytes]; ps_output := out; ps_perr := hndl; ps_cerr := hndl |}.
Definition row1 (b : bytes) : wmsg := (68, [0; 1; 0; 0; 0; len b] ++ b).
Definition answer_of (l : list wmsg) (tag : bytes) : list wire := [WBatch 1 [(50, [])]; WBatch 2 (l ++ [(67, tag ++ [0])]); WBatch 3 [(51, []); (90, [73])]].
Example one_column : snd (first 20 (stmt_with [as_bytes]) [Some [7]] (answer_of [row1 [65]; row1 [66]] [83; 69; 76; 32; 50])) = FoVal (FvOne [65]).
Proof. reflexivity. Qed.
Example null_column : snd (first 20 (stmt_with [as_bytes]) [Some [7]] (answer_of [(68, [0; 1; 255; 255; 255; 255])] [83; 69; 76; 32; 49])) = FoVal FvNone.
Proof. reflexivity. Qed.
Example two_columns : snd (first 20 (stmt_with [as_bytes; as_bytes]) [None] (answer_of [(68, [0; 2; 255; 255; 255; 255; 0; 0; 0; 1; 9])] [83; 69; 76; 32; 49])) = FoVal (FvRow [None; Some [9]]).
Proof. reflexivity. Qed.
Example count_given : snd (first 20 (stmt_with []) [Some []] (answer_of [] [73; 78; 83; 69; 82; 84; 32; 48; 32; 51])) = FoVal (FvCount 3).
Proof. reflexivity. Qed.
Example command_given : snd (first 20 (stmt_with []) [Some []] (answer_of [] [66; 69; 71; 73; 78])) = FoVal (FvCommand [66; 69; 71; 73; 78]).
Proof. reflexivity. Qed.
Example wrong_number : first 20 (stmt_with []) [] [] = ([], FoRaise TypeError).
Proof. reflexivity. Qed.
Example read_ok : readable 0 (answer_of [row1 [65]; row1 [66]] [83; 69; 76; 32; 50]) /\ never_lost (answer_of [row1 [65]; row1 [66]] [83; 69; 76; 32; 50]).
Proof.
  assert (W : forall x, (exists k m, srv_kind (fst x) = Some k /\ parse k (snd x) = Ok m) -> is_asyncb x = false -> fst x <> 69 -> well_formed x).
  { intros x (k & m & S & P) A N. split; [intros k' S'; exists m; congruence|]. split; [|intros Q; contradiction].
    intros Q. unfold is_async in Q. unfold is_asyncb in A. destruct Q as [Q|[Q|Q]]; rewrite Q in A; discriminate. }
  split; [|repeat constructor; discriminate]. cbn [answer_of readable app].
  split; [discriminate|]. split; [discriminate|]. split; [repeat (apply Forall_cons; [apply W; [eexists; eexists; split; reflexivity|reflexivity|discriminate]|]); apply Forall_nil|].
  split; [discriminate|]. split; [discriminate|]. split; [repeat (apply Forall_cons; [apply W; [eexists; eexists; split; reflexivity|reflexivity|discriminate]|]); apply Forall_nil|].
  split; [discriminate|]. split; [discriminate|]. split; [repeat (apply Forall_cons; [apply W; [eexists; eexists; split; reflexivity|reflexivity|discriminate]|]); apply Forall_nil|exact Logic.I].
Qed.
Example conv_ok : conv (first_request (stmt_with [as_bytes]) [Some [7]]) (sync_part (wire_msgs (answer_of [row1 [65]; row1 [66]] [83; 69; 76; 32; 50]))) None.
Proof.
  apply (cv_answer _ 66 _ [(50, [])]); [reflexivity|constructor|]. apply (cv_answer _ 69 _ [row1 [65]; row1 [66]; (67, [83; 69; 76; 32; 50; 0])]); [reflexivity|apply (an_execute_rows 1)|].
  apply (cv_answer _ 67 _ [(51, [])]); [reflexivity|constructor|]. apply (cv_answer _ 83 _ [(90, [73])] []); [reflexivity|constructor|constructor].
Qed.
