(** MesgProps.v: C58 and C59, errors and messages as the user gets them *)
From Verif Require Import Base BaseProof PyStr PyDict PyDictProof Element3Model Element3Spec Element3Props ExcModel ExcTable ExcSpec MesgModel MesgSpec MesgProof MesgProof2 MesgProof3 MesgProof4.
Open Scope Z_scope.

(** ** C58: the exception raised for an error of the server carries what the server sent.  For every error with a code and a
    message, whatever its bytes and the encoding: the class is the one of its code, the code, message and details are the
    server's, decoded, or readable if they cannot be decoded; nothing is added, and only fields the driver has no name for
    are left out. *)
Theorem C58_error : forall csource decode_in codec l c m creator controller database,
  NoDup (map fst l) -> Forall (fun kv => is_bytes (snd kv)) l -> In (str "C", c) l -> In (str "M", m) l ->
  exists e, raise_error csource decode_in codec (FromServer l) creator controller database = Ok e /\
    carries (shows (decode_in codec)) l c m e /\ m_class e = Some (ErrorLookup (m_code e)) /\ m_source e = str "SERVER" /\ m_database e = database /\
    m_creator e = match creator, controller with Some o, _ => o | None, Some o => o | None, None => database end.
Proof.
  intros csource decode_in codec l c m creator controller database ND FB IC IM. unfold raise_error.
  destruct (raise_server csource decode_in codec l c m (match creator with Some c => c | None => match controller with Some c => c | None => database end end) database ND FB IC IM)
    as (e & E & A & B & C & D & F). exists e. split; [exact E|]. split; [exact A|]. split; [exact B|]. split; [exact C|]. split; [exact F|]. rewrite D. destruct creator; reflexivity.
Qed.
Print Assumptions C58_error.

(** the same from the bytes of the message on the wire *)
Theorem C58_wire : forall csource decode_in codec l c m creator controller database,
  wf_message (MNotice true l) -> Forall (fun kv => is_bytes (snd kv)) l -> In (str "C", c) l -> In (str "M", m) l ->
  exists l' e, parse (KNotice true) (wire_body (MNotice true l)) = Ok (MNotice true l') /\
    raise_error csource decode_in codec (FromServer l') creator controller database = Ok e /\
    carries (shows (decode_in codec)) l c m e /\ m_class e = Some (ErrorLookup (m_code e)).
Proof.
  intros csource decode_in codec l c m creator controller database WF FB IC IM. exists l.
  destruct (C58_error csource decode_in codec l c m creator controller database (proj1 WF) FB IC IM) as (e & E & A & B & _). exists e.
  split; [apply (C04_parse_wire (MNotice true l) WF)|]. auto.
Qed.
Print Assumptions C58_wire.

(** an error the driver makes (lost connection, protocol violation, unsupported authentication) carries its texts as they are *)
Theorem C58_client : forall csource decode_in codec l c m creator controller database,
  NoDup (map fst l) -> In (str "C", c) l -> In (str "M", m) l ->
  exists e, raise_error csource decode_in codec (FromClient l) creator controller database = Ok e /\
    carries eq l c m e /\ m_class e = Some (ErrorLookup (m_code e)) /\ m_source e = str "CLIENT".
Proof.
  intros csource decode_in codec l c m creator controller database ND IC IM. unfold raise_error, raise_client_error, raise_fields.
  assert (GC : dget (str "code") (known_fields l) = Some c) by (apply known_spec; [exact ND|]; exists 67; split; [exact IC|constructor]).
  assert (GM : dget (str "message") (known_fields l) = Some m) by (apply known_spec; [exact ND|]; exists 77; split; [exact IM|constructor]).
  destruct (two_pops (str "code") (str "message") _ _ _ ltac:(discriminate) GC GM) as [P1 P2].
  rewrite P1. cbn [bind]. rewrite P2. cbn [bind]. eexists. split; [reflexivity|]. unfold carries. rewrite new_code, new_source.
  split; [|auto]. split; [reflexivity|]. split; [reflexivity|]. split; [|split].
  - apply MesgProof.ddel_nodup, MesgProof.ddel_nodup, known_nodup.
  - intros name t H. cbn [m_details new_message] in H. rewrite !dget_del in H. destruct (seqb_spec name (str "message")) as [|Nb]; [discriminate|]. destruct (seqb_spec name (str "code")) as [|Na]; [discriminate|].
    apply known_spec in H as (z & IN & F); [|exact ND]. now exists z, t.
  - intros z v name IN F N1 N2. exists v. cbn [m_details new_message]. rewrite !dget_del. rewrite !seqb_ne by congruence. apply known_spec; [exact ND|]. now exists z.
Qed.
Print Assumptions C58_client.

(** .fatal tells the severities that end the session *)
Theorem C58_fatal : forall csource decode_in codec l c m s creator controller database e,
  NoDup (map fst l) -> In (str "C", c) l -> In (str "M", m) l -> In (str "S", s) l -> decode_in codec s = Some s ->
  raise_error csource decode_in codec (FromServer l) creator controller database = Ok e ->
  error_fatal e = Some true <-> s = str "FATAL" \/ s = str "PANIC".
Proof.
  intros csource decode_in codec l c m s creator controller database e ND IC IM IS DS E. unfold raise_error, raise_server_error, raise_fields in E.
  pose proof (field_get decode_in codec 67 c (str "code") l ND IC f_code) as GC. pose proof (field_get decode_in codec 77 m (str "message") l ND IM f_message) as GM.
  pose proof (field_get decode_in codec 83 s (str "severity") l ND IS f_severity) as GS.
  destruct (two_pops (str "code") (str "message") _ _ _ ltac:(discriminate) GC GM) as [P1 P2]. rewrite P1 in E. cbn [bind] in E. rewrite P2 in E. cbn [bind] in E. injection E as <-.
  unfold error_fatal. cbn [m_details new_message]. rewrite !dget_del. rewrite !seqb_ne by discriminate. rewrite GS. unfold shown. rewrite DS. cbn [existsb].
  split.
  - intros H. injection H as H. destruct (seqb_spec s (str "PANIC")); [auto|]. destruct (seqb_spec s (str "FATAL")); [auto|discriminate].
  - intros [-> | ->]; reflexivity.
Qed.
Print Assumptions C58_fatal.

(** an error without a code or message, which no server sends, is a KeyError *)
Theorem C58_unlabelled : forall csource decode_in codec l creator controller database,
  NoDup (map fst l) -> ((forall v, ~ In (str "C", v) l) \/ (forall v, ~ In (str "M", v) l)) ->
  raise_error csource decode_in codec (FromServer l) creator controller database = Err KeyError.
Proof.
  intros csource decode_in codec l creator controller database ND H. unfold raise_error, raise_server_error, raise_fields, dpop. destruct H as [H|H].
  - now rewrite (no_field decode_in codec l 67 (str "code") ND f_code H).
  - destruct (dget (str "code") (decode_notice decode_in codec l)); [|reflexivity]. cbn [bind]. rewrite dget_del, seqb_ne by discriminate.
    now rewrite (no_field decode_in codec l 77 (str "message") ND f_message H).
Qed.
Print Assumptions C58_unlabelled.

(** where the severity is localized, as servers send it with lc_messages, a fatal error says that it is not *)
Theorem C58_fatal_localized_refuted : exists csource decode_in codec l e, wf_message (MNotice true l) /\ In (str "S", str "FATALE") l /\ In (str "V", str "FATAL") l /\
  raise_error csource decode_in codec (FromServer l) None None O = Ok e /\ error_fatal e = Some false.
Proof.
  exists (fun _ => str "SERVER"), (fun _ b => Some b), (str "utf_8"), [(str "S", str "FATALE"); (str "V", str "FATAL"); (str "C", str "57P01"); (str "M", str "bye")].
  eexists. split; [|split; [left; reflexivity|split; [right; left; reflexivity|split; [vm_compute; reflexivity|vm_compute; reflexivity]]]].
  unfold wf_message, nonul. split; [repeat constructor; cbn; intuition discriminate|]. repeat constructor; cbn; intuition discriminate.
Qed.
Print Assumptions C58_fatal_localized_refuted.

(** ** C59: messages.  A message is given to the msghook of its creator, then of the creator's prime factor and so on, to each at
    most once, until one returns a true value or raises; if none does, once to postgresql.sys.msghook. *)
Theorem C59_emit : forall factor hooked answer syshook fuel g m l, chain factor (m_creator m) l -> (length l <= fuel)%nat ->
  exists calls r, emit factor hooked answer syshook fuel g m = (g ++ calls, r) /\ emission hooked answer syshook g m l calls r.
Proof. intros factor hooked answer syshook fuel g m l C LE. now apply emit_from_ok. Qed.
Print Assumptions C59_emit.

(** every notice the server sends during a request causes exactly one emission, in order, with its fields decoded by the
    encoding in force then; notifications are kept in order; a hook that raises, a notice that lacks a field or an unknown
    encoding does not keep the rest from being processed *)
Theorem C59_delivered : forall csource decode_in known upper U factor hooked answer syshook fuel self sett repr_msg s l ch,
  let creator := match c_controller s with Some c => c | None => self end in
  chain factor creator ch -> (length ch <= fuel)%nat -> Forall asynchronous l ->
  exists s', deliver csource decode_in known upper U factor hooked answer syshook fuel self sett repr_msg s l = s' /\
    c_notifies s' = c_notifies s ++ notifications l /\
    exists ms calls, heard decode_in known upper U creator self (c_codec s) l ms (c_codec s') /\
      c_log s' = c_log s ++ calls /\ emissions hooked answer syshook ch (c_log s) ms calls.
Proof.
  intros csource decode_in known upper U factor hooked answer syshook fuel self sett repr_msg s l ch creator C LE F. eexists. split; [reflexivity|].
  destruct (deliver_spec csource decode_in known upper U factor hooked answer syshook fuel self sett repr_msg ch l s C LE F) as (_ & _ & N & R). split; [exact N|exact R].
Qed.
Print Assumptions C59_delivered.
Theorem C59_each : forall hooked answer syshook l g ms calls, emissions hooked answer syshook l g ms calls ->
  exists blocks, calls = concat blocks /\ Forall2 (fun m b => b <> [] /\ Forall (fun x => snd x = m) b) ms blocks.
Proof.
  intros hooked answer syshook l g ms calls E. induction E as [g|g m c r ms cs EM E (bs & -> & F)].
  - exists []. split; [reflexivity|constructor].
  - exists (c :: bs). split; [reflexivity|]. constructor; [|exact F]. eapply emission_calls; eassumption.
Qed.
Print Assumptions C59_each.

(** in any history of requests, what the server says and the error it raises are attributed to the object whose request was
    running; the bookkeeping itself never fails *)
Theorem C59_attributed : forall csource decode_in known upper U factor hooked answer syshook fuel self sett repr_msg s ops p s' r,
  started s ->
  let run := run_op csource decode_in known upper U factor hooked answer syshook fuel self sett repr_msg in
  let s1 := fold_left (fun s p => fst (run s p)) ops s in
  run s1 p = (s', r) ->
  (exists calls, c_log s' = c_log s1 ++ calls /\ Forall (fun x => c_running s1 = Some (m_creator (snd x))) calls) /\
  (forall e, r = Raised e -> c_running s1 = Some (m_creator e)) /\
  (forall x, r = Other x -> x = KeyError).
Proof.
  intros csource decode_in known upper U factor hooked answer syshook fuel self sett repr_msg s ops p s' r (ST1 & ST2 & ST3) run s1 H.
  assert (I : attr_inv s1) by (apply run_inv; intros c; congruence). now destruct (op_step _ _ _ _ _ _ _ _ _ _ _ _ _ _ _ _ _ I H) as (_ & A).
Qed.
Print Assumptions C59_attributed.
(** the request that runs is the last one pushed, until it is completed *)
Theorem C59_running : forall csource decode_in known upper U factor hooked answer syshook fuel self sett repr_msg s p,
  let s' := fst (run_op csource decode_in known upper U factor hooked answer syshook fuel self sett repr_msg s p) in
  let r := snd (run_op csource decode_in known upper U factor hooked answer syshook fuel self sett repr_msg s p) in
  match p with
  | Push o c => c_running s' = if (match c_running s with Some _ => o_error o | None => None end) then None else Some c
  | Complete o => c_running s' = None
  | Step o done => c_running s' = if done then None else c_running s
  end.
Proof.
  intros csource decode_in known upper U factor hooked answer syshook fuel self sett repr_msg s p. cbv zeta.
  destruct p as [o c|o|o done]; cbn [run_op]; unfold pq_push, pq_complete, pq_step; destruct (c_running s) as [w|] eqn:R; cbn [fst]; auto.
  - destruct (o_error o); reflexivity.
  - destruct (o_error o); [reflexivity|]. unfold del_controller. cbn [with_running c_controller]. destruct (c_controller (deliver _ _ _ _ _ _ _ _ _ _ _ _ _ s (o_asyncs o))); reflexivity.
  - destruct done; [|cbn [fst]; now rewrite (proj1 (proj2 (deliver_keeps csource decode_in known upper U factor hooked answer syshook fuel self sett repr_msg (o_asyncs o) s)))].
    destruct (o_error o); [reflexivity|]. unfold del_controller. cbn [with_running c_controller]. destruct (c_controller (deliver _ _ _ _ _ _ _ _ _ _ _ _ _ s (o_asyncs o))); reflexivity.
  - destruct done; exact R.
Qed.
Print Assumptions C59_running.

(** the encodings of PostgreSQL that have another name in Python, the Windows code pages, and the rest *)
Theorem C59_codec : forall n p, codec_of n p -> get_python_name n = p.
Proof. exact python_name. Qed.
Print Assumptions C59_codec.

(** every client encoding of the server for which Python has a codec gets that codec ... *)
Theorem C59_encodings : Forall (fun np => get_python_name (fst np) = snd np) client_encodings.
Proof. repeat (constructor; [vm_compute; reflexivity|]). constructor. Qed.
Print Assumptions C59_encodings.
(** ... but one: shift_jis_2004 gets the codec of another encoding, euc_jis_2004 *)
Theorem C59_shift_jis_2004_refuted : get_python_name (str "shift_jis_2004") = str "euc_jis_2004" /\ get_python_name (str "euc_jis_2004") = str "euc_jis_2004".
Proof. split; vm_compute; reflexivity. Qed.
Print Assumptions C59_shift_jis_2004_refuted.

(** a warning of a server that localizes severities is not a Warning *)
Theorem C59_localized_refuted : exists csource decode_in upper l m, (forall c, 65 <= c <= 90 -> upper c = [c]) /\ wf_message (MNotice false l) /\
  In (str "S", str "WARNUNG") l /\ In (str "V", str "WARNING") l /\
  message_of csource upper (decode_notice decode_in (str "utf_8") l) (str "SERVER") O O = Ok m /\ m_code m = str "01000" /\ m_class m = None.
Proof.
  exists (fun _ => str "SERVER"), (fun _ b => Some b), (fun c => [c]), [(str "S", str "WARNUNG"); (str "V", str "WARNING"); (str "C", str "01000"); (str "M", str "careful")].
  eexists. split; [auto|]. split; [|split; [left; reflexivity|split; [right; left; reflexivity|split; [vm_compute; reflexivity|split; reflexivity]]]].
  unfold wf_message, nonul. split; [repeat constructor; cbn; intuition discriminate|]. repeat constructor; cbn; intuition discriminate.
Qed.
Print Assumptions C59_localized_refuted.

(** ** the hypotheses are met *)
(** a decoder that refuses bytes above 127; an error with an undecodable detail and an unknown field *)
Definition ex_decode (_ : text) (b : bytes) : option text := if forallb (fun c => c <? 128) b then Some b else None.
Definition ex_error : list (bytes * bytes) :=
  [(str "S", str "ERROR"); (str "V", str "ERROR"); (str "C", str "22012"); (str "M", str "division by zero"); (str "D", str "caf" ++ [233; 39; 10]); (str "P", str "8")].
Example ex_error_raised : exists e, raise_error (fun _ => str "SERVER") ex_decode (str "ascii") (FromServer ex_error) None (Some 3%nat) 1%nat = Ok e /\
  option_map c_name (m_class e) = Some (str "ZeroDivisionError") /\ m_message e = str "division by zero" /\ m_creator e = 3%nat /\
  m_details e = [(str "severity", str "ERROR"); (str "detail", str "caf\xe9'\n"); (str "position", str "8")] /\ error_fatal e = Some false.
Proof. eexists. split; [vm_compute; reflexivity|]. repeat (split; [vm_compute; reflexivity|]). vm_compute. reflexivity. Qed.
Example ex_error_wf : wf_message (MNotice true ex_error) /\ Forall (fun kv => is_bytes (snd kv)) ex_error.
Proof.
  split.
  - unfold wf_message, nonul. split; [repeat constructor; cbn; intuition discriminate|]. repeat constructor; cbn; intuition discriminate.
  - unfold is_bytes, is_byte. repeat constructor; cbn; lia.
Qed.
Example ex_unescape : unescape (str "caf\xe9'\n") = str "caf" ++ [233; 39; 10]. Proof. reflexivity. Qed.
(** cursor 3, statement 2, connection 1, connector 0; the statement's hook declines, the connection's traps what says trap *)
Definition ex_factor (o : nat) : option nat := match o with O => None | S n => Some n end.
Definition ex_hooked (o : nat) : bool := Nat.eqb o 2 || Nat.eqb o 1.
Definition ex_answer (g : log) (o : nat) (m : msg) : res bool := Ok (Nat.eqb o 1 && seqb (m_message m) (str "trap")).
Definition ex_notice (t : text) : list (bytes * bytes) := [(str "S", str "Warning"); (str "C", str "01P01"); (str "M", t)].
Definition ex_upper (c : Z) : text := [if ascii_lowerc c then c - 32 else c].
Definition ex_deliver := deliver (fun _ => str "SERVER") ex_decode (fun n => negb (seqb n (str "nonsense"))) ex_upper ascii_unicode ex_factor ex_hooked ex_answer (fun _ _ => None) 10 1 (fun _ _ => None) (fun _ => []).
Definition ex_conn : conn := {| c_encoding := str "ascii"; c_codec := str "ascii"; c_controller := Some 3%nat; c_notifies := []; c_told := []; c_log := []; c_excs := []; c_running := Some 3%nat |}.
Definition ex_traffic : list message := [MNotice false (ex_notice (str "trap")); MNotify 7 (str "ch") (str "x"); MShowOption (str "client_encoding") (str "WIN1252");
  MNotice false [(str "M", str "no code")]; MShowOption (str "client_encoding") (str "nonsense"); MNotice false (ex_notice (str "hello"))].
Example ex_chain : chain ex_factor 3 [3; 2; 1; 0]%nat.
Proof. repeat (eapply chain_next; [reflexivity|]). now apply chain_last. Qed.
Example ex_async : Forall asynchronous ex_traffic.
Proof.
  unfold ex_traffic, ex_notice, is_bytes, is_byte. repeat apply Forall_cons; try apply Forall_nil; cbn [asynchronous]; try exact Logic.I.
  all: split; [repeat constructor; cbn; intuition discriminate|repeat constructor; cbn; lia].
Qed.
Example ex_delivered : let s := ex_deliver ex_conn ex_traffic in
  map (fun x => (fst x, m_message (snd x), option_map c_name (m_class (snd x)))) (c_log s) =
    [(Some 2%nat, str "trap", Some (str "DeprecationWarning")); (Some 1%nat, str "trap", Some (str "DeprecationWarning"));
     (Some 2%nat, str "hello", Some (str "DeprecationWarning")); (Some 1%nat, str "hello", Some (str "DeprecationWarning")); (None, str "hello", Some (str "DeprecationWarning"))] /\
  c_codec s = str "cp1252" /\ c_notifies s = [(7, str "ch", str "x")] /\ c_excs s = [KeyError; OtherError 1].
Proof. vm_compute. repeat split. Qed.
Example ex_history : started {| c_encoding := []; c_codec := str "ascii"; c_controller := None; c_notifies := []; c_told := []; c_log := []; c_excs := []; c_running := None |} /\
  let run := run_op (fun _ => str "SERVER") ex_decode (fun _ => true) ex_upper ascii_unicode ex_factor ex_hooked ex_answer (fun _ _ => None) 10 1 (fun _ _ => None) (fun _ => []) in
  let none := {| o_asyncs := []; o_error := None |} in
  let bad := {| o_asyncs := [MNotice false (ex_notice (str "hm"))]; o_error := Some (FromServer ex_error) |} in
  let s1 := fst (run {| c_encoding := []; c_codec := str "ascii"; c_controller := None; c_notifies := []; c_told := []; c_log := []; c_excs := []; c_running := None |} (Push none 2)) in
  exists s2 e, run s1 (Push bad 3) = (s2, Raised e) /\ m_creator e = 2%nat /\ map (fun x => m_creator (snd x)) (c_log s2) = [2; 2; 2]%nat /\ c_running s2 = None.
Proof. split; [now repeat split|]. cbv zeta. eexists. eexists. split; [vm_compute; reflexivity|]. repeat split. Qed.
Example ex_codecs : codec_of (str "windows-1252") (str "cp1252") /\ codec_of (str "unicode") (str "utf_8") /\ codec_of (str "latin1") (str "latin1").
Proof.
  split; [|split].
  - apply (co_windows (str "windows") (str "-") (str "1252")); [cbn; auto|cbn; auto|discriminate|change (str "1252") with [49; 50; 53; 50]; repeat (apply Forall_cons; [lia|]); apply Forall_nil].
  - apply co_renamed. cbn. auto.
  - apply co_same; [intros H; vm_compute in H; intuition discriminate|reflexivity].
Qed.
