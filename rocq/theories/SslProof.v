(** SslProof.v *)
From Verif Require Import Base PBufferModel Element3Model PyStr IterModel IterProof PyDictProof SslModel SslSpec.

Lemma before_app {A} (y x : A) a b : before y x a -> before y x b -> before y x (a ++ b).
Proof.
  intros Ha Hb p q E.
  apply app_eq_app in E as (l & [(-> & E)|(-> & E)]).
  - destruct l as [|e l].
    + cbn in E. rewrite app_nil_r in *. exfalso. exact (Hb [] q (eq_sym E)).
    + cbn in E. injection E as <- ->. apply (Ha p l eq_refl).
  - apply in_or_app. right. apply (Hb l q). auto.
Qed.
Lemma before_nil {A} (y x : A) : before y x [].
Proof. intros a b E. destruct a; discriminate. Qed.
Lemma before_absent {A} (y x : A) l : ~ List.In x l -> before y x l.
Proof. intros N a b ->. exfalso. apply N, in_or_app. right. left. auto. Qed.
Lemma before_after {A} (y x : A) a b : ~ List.In x a -> List.In y a -> before y x (a ++ b).
Proof.
  intros N I p q E. apply app_eq_app in E as (l & [(-> & E)|(-> & E)]).
  - destruct l as [|e l].
    + rewrite app_nil_r in *. auto.
    + cbn in E. injection E as <- ->. exfalso. apply N, in_or_app. right. left. auto.
  - apply in_or_app. left. auto.
Qed.
Lemma before_concat {A} (y x : A) ls : Forall (before y x) ls -> before y x (concat ls).
Proof. induction 1; cbn; [apply before_nil|apply before_app; auto]. Qed.

(** ** one attempt *)
Lemma send_all_shape s r l ev ok : send_all s r l = (ev, ok) ->
  Forall (fun e => exists d, e = SPlain s d) ev /\
  exists r', r = plain s ev ++ r' /\ (ok = true -> r' = []).
Proof.
  revert l ev. remember (length r) as n eqn:E. revert r E.
  induction n as [n IH] using lt_wf_ind. intros r -> l. revert r IH.
  induction l as [|o l IHl]; intros r IH ev.
  - destruct r; cbn; intros [= <- <-]; split; auto; eexists; split; try reflexivity; auto. discriminate.
  - destruct r as [|b r]; [cbn; intros [= <- <-]; split; auto; exists []; auto|].
    destruct o as [n|].
    + cbn [send_all]. destruct (send_all s (skipn n (b :: r)) l) as [ev' ok'] eqn:E. intros [= <- <-].
      assert (S : Forall (fun e => exists d, e = SPlain s d) ev' /\
                  exists r', skipn n (b :: r) = plain s ev' ++ r' /\ (ok' = true -> r' = [])).
      { destruct n as [|n].
        - cbn [skipn] in *. eapply IHl; eauto.
        - eapply (IH (length (skipn (S n) (b :: r)))); [rewrite skipn_length; cbn; lia|reflexivity|exact E]. }
      destruct S as (F & r' & Er & O). split; [constructor; eauto|].
      exists r'. split; auto. cbn [plain]. rewrite Nat.eqb_refl, <- app_assoc, <- Er. symmetry. apply firstn_skipn.
    + cbn. intros [= <- <-]. split; auto. eexists. split; [reflexivity|discriminate].
Qed.

(** the events of an attempt *)
Definition evs {H} (out : nat -> outside) (a : attempt H) : list sev :=
  fst (fst (connect (a_num a) (a_ssl a) (out (a_num a)))) ++
  match a_out a with AFail _ _ true => [SClose (a_num a)] | _ => [] end.
(** the record tells what connect() did *)
Definition faithful {H} (out : nat -> outside) (a : attempt H) : Prop :=
  a_did a = snd (fst (connect (a_num a) (a_ssl a) (out (a_num a)))) /\
  a_out a = snd (connect (a_num a) (a_ssl a) (out (a_num a))).
Definition plain_only (s : nat) (e : sev) : Prop := exists d, e = SPlain s d.

Inductive shape (s : nat) (ssl : option bool) (o : outside) : list sev -> didssl -> att_out -> Prop :=
| sh_error : o_open o = OpError -> shape s ssl o [] DAbsent (AFail WOpen true false)
| sh_raise : o_open o = OpRaise -> shape s ssl o [] DAbsent ARaise
| sh_plain a : o_open o = OpOk -> ssl = None -> a = snd (startup s o) -> shape s ssl o [SOpen s; SStartup s] DAbsent a
| sh_broken ev r : o_open o = OpOk -> ssl <> None -> Forall (plain_only s) ev -> ssl_request = plain s ev ++ r ->
    shape s ssl o (SOpen s :: ev) DAbsent ARaise
| sh_other ev b : o_open o = OpOk -> ssl <> None -> Forall (plain_only s) ev -> plain s ev = ssl_request ->
    o_status o = RcByte b -> b <> [83] -> b <> [78] ->
    shape s ssl o (SOpen s :: ev ++ [SRecv1 s]) DNone (AFail WNotPq false true)
| sh_refused ev : o_open o = OpOk -> ssl = Some true -> Forall (plain_only s) ev -> plain s ev = ssl_request ->
    refuses_ssl o ->
    shape s ssl o (SOpen s :: ev ++ [SRecv1 s]) DFalse (AFail WNoSsl false true)
| sh_nossl ev a : o_open o = OpOk -> ssl = Some false -> Forall (plain_only s) ev -> plain s ev = ssl_request ->
    refuses_ssl o -> a = snd (startup s o) ->
    shape s ssl o (SOpen s :: ev ++ [SRecv1 s; SStartup s]) DFalse a
| sh_handshake ev : o_open o = OpOk -> ssl <> None -> Forall (plain_only s) ev -> plain s ev = ssl_request ->
    accepts_ssl o ->
    shape s ssl o (SOpen s :: ev ++ [SRecv1 s]) DTrue (AFail WSslFailed true true)
| sh_tls ev a : o_open o = OpOk -> ssl <> None -> Forall (plain_only s) ev -> plain s ev = ssl_request ->
    accepts_ssl o -> a = snd (startup s o) ->
    shape s ssl o (SOpen s :: ev ++ [SRecv1 s; STls s; SStartup s]) DTrue a.

Lemma connect_shape s ssl o ev d a : connect s ssl o = (ev, d, a) -> shape s ssl o ev d a.
Proof.
  unfold connect. destruct (o_open o) eqn:EO.
  2:{ intros [= <- <- <-]. now constructor. }
  2:{ intros [= <- <- <-]. now constructor. }
  destruct ssl as [req|].
  2:{ unfold startup. intros [= <- <- <-]. now constructor. }
  unfold negotiate_ssl. destruct (send_all s ssl_request (o_sends o)) as [pe ok] eqn:ES.
  destruct (send_all_shape _ _ _ _ _ ES) as (F & r & Er & R).
  destruct ok.
  2:{ intros [= <- <- <-]. eapply sh_broken; eauto. discriminate. }
  rewrite (R eq_refl), app_nil_r in Er.
  destruct (o_status o) as [b|] eqn:EB.
  2:{ intros [= <- <- <-]. eapply (sh_broken s _ o pe []); eauto; [discriminate|now rewrite app_nil_r]. }
  assert (Other : b <> [83] -> b <> [78] -> 
            (match b with [b] => if b =? S_byte then DTrue else if b =? N_byte then DFalse else DNone | _ => DNone end) = DNone).
  { intros N1 N2. destruct b as [|b [|b' r']]; auto. unfold S_byte, N_byte.
    destruct (Z.eqb_spec b 83) as [->|]; [now contradict N1|].
    destruct (Z.eqb_spec b 78) as [->|]; [now contradict N2|]. auto. }
  destruct (list_eq_dec Z.eq_dec b [83]) as [->|N1].
  { cbn -[ssl_request startup]. destruct (o_secure o); [unfold startup|].
    - intros [= <- <- <-]. rewrite <- app_assoc. cbn [app]. eapply sh_tls; eauto. discriminate.
    - intros [= <- <- <-]. eapply sh_handshake; eauto. discriminate. }
  destruct (list_eq_dec Z.eq_dec b [78]) as [->|N2].
  { cbn -[ssl_request startup]. destruct req; [|unfold startup].
    - intros [= <- <- <-]. eapply sh_refused; eauto.
    - intros [= <- <- <-]. rewrite <- app_assoc. cbn [app]. eapply sh_nossl; eauto. }
  rewrite (Other N1 N2). intros [= <- <- <-]. eapply sh_other; eauto. discriminate.
Qed.

Lemma faithful_shape {H} out (a : attempt H) : faithful out a ->
  exists ev, shape (a_num a) (a_ssl a) (out (a_num a)) ev (a_did a) (a_out a) /\
    evs out a = ev ++ match a_out a with AFail _ _ true => [SClose (a_num a)] | _ => [] end.
Proof.
  intros (D & O). unfold evs. rewrite O, D.
  destruct (connect _ _ _) as [[ev d] o] eqn:E. cbn. exists ev. split; auto. apply connect_shape. auto.
Qed.

(** ** the loop *)
Section Loop.
  Context {H : Type}.
  Notation attempt := (attempt H).

  Lemma loop_faithful mode out : forall (l : list (option bool * H)) n skip fs ev log r,
    establish_loop mode out n skip l fs = (ev, log, r) ->
    ev = concat (map (evs out) log) /\ Forall (faithful out) log /\ map a_num log = seq n (length log).
  Proof.
    induction l as [|[ssl f] l IH]; intros n skip fs ev log r; cbn [establish_loop].
    { intros [= <- <- <-]. cbn. auto. }
    destruct skip; [apply IH|].
    destruct (connect n ssl (out n)) as [[ce d] o] eqn:E.
    assert (Fa : faithful out {| a_num := n; a_ssl := ssl; a_host := f; a_did := d; a_out := o |})
      by (split; cbn; rewrite E; auto).
    destruct o as [|w exc sock|].
    - intros [= <- <- <-]. cbn. unfold evs. cbn. rewrite E. cbn. rewrite !app_nil_r. repeat split; auto.
    - destruct (establish_loop mode out (S n) _ l _) as [[ev' log'] r'] eqn:EL. intros [= <- <- <-].
      apply IH in EL as (-> & F & N). split; [|split; [constructor; auto|cbn; f_equal; auto]].
      cbn [map concat]. unfold evs at 2. cbn. rewrite E. cbn. destruct sock; rewrite <- ?app_assoc; cbn; auto.
    - intros [= <- <- <-]. cbn. unfold evs. cbn. rewrite E. cbn. rewrite !app_nil_r. repeat split; auto.
  Qed.

  Lemma loop_result mode out : forall (l : list (option bool * H)) n skip fs ev log r,
    establish_loop mode out n skip l fs = (ev, log, r) ->
    match r with
    | Connected a sec => exists l0, log = l0 ++ [a] /\ Forall failed l0 /\ a_out a = AOk /\
        sec = match a_did a with DTrue => true | _ => false end
    | NotConnected fs' => fs' = fs ++ log /\ Forall failed log
    | Broken => exists l0 a, log = l0 ++ [a] /\ Forall failed l0 /\ a_out a = ARaise
    end.
  Proof.
    induction l as [|[ssl f] l IH]; intros n skip fs ev log r; cbn [establish_loop].
    { intros [= <- <- <-]. rewrite app_nil_r. auto. }
    destruct skip; [apply IH|].
    destruct (connect n ssl (out n)) as [[ce d] o] eqn:E.
    destruct o as [|w exc sock|].
    - intros [= <- <- <-]. exists []. repeat split; auto.
    - destruct (establish_loop mode out (S n) _ l _) as [[ev' log'] r'] eqn:EL. intros [= <- <- <-].
      set (a := {| a_num := n; a_ssl := ssl; a_host := f; a_did := d; a_out := AFail w exc sock |}) in *.
      assert (Fa : failed a) by (do 3 eexists; reflexivity).
      apply IH in EL. destruct r' as [b sec|fs'|].
      + destruct EL as (l0 & -> & F & O & S). exists (a :: l0). repeat split; auto.
      + destruct EL as (-> & F). rewrite <- app_assoc. auto.
      + destruct EL as (l0 & b & -> & F & O). exists (a :: l0), b. repeat split; auto.
    - intros [= <- <- <-]. eexists [], _. repeat split; auto.
  Qed.

  (** the sequence of attempts: [cands] is what the hosts give in the mode *)
  Definition cands (mode : text) (h : H) : list (option bool * H) :=
    if seqb mode (str "allow") then [(None, h); (Some true, h)]
    else if seqb mode (str "prefer") then [(Some false, h); (None, h)]
    else if seqb mode (str "require") then [(Some true, h)]
    else [(None, h)].
  Definition known (mode : text) : Prop :=
    mode = str "allow" \/ mode = str "prefer" \/ mode = str "require" \/ mode = str "disable".

  Lemma zip2_map {A} (x y : A) (l : list H) :
    zip2 (map (fun f => (x, f)) l) (map (fun f => (y, f)) l) = flat_map (fun f => [(x, f); (y, f)]) l.
  Proof. induction l; cbn; f_equal; f_equal; auto. Qed.
  Lemma map_flat {A} (x : A) (l : list H) : map (fun f => (x, f)) l = flat_map (fun f => [(x, f)]) l.
  Proof. induction l; cbn; f_equal; auto. Qed.
  Lemma candidates_spec mode (hs : list H) l : candidates mode hs = Ok l ->
    known mode /\ l = flat_map (cands mode) hs.
  Proof.
    unfold candidates, cands, known. cbv zeta.
    destruct (seqb_spec mode (str "allow")) as [->|].
    { intros [= <-]. split; auto. rewrite interlace_2 by (now rewrite !map_length). apply zip2_map. }
    destruct (seqb_spec mode (str "prefer")) as [->|].
    { intros [= <-]. split; auto. rewrite interlace_2 by (now rewrite !map_length). apply zip2_map. }
    destruct (seqb_spec mode (str "require")) as [->|].
    { intros [= <-]. split; auto using map_flat. }
    destruct (seqb_spec mode (str "disable")) as [->|]; [|discriminate].
    intros [= <-]. split; auto using map_flat.
  Qed.

  (** skipping takes the next candidate away *)
  Lemma loop_skip mode out n c l fs :
    establish_loop mode out n true (c :: l) fs = establish_loop (H:=H) mode out n false l fs.
  Proof. destruct c. reflexivity. Qed.

  Lemma not_failed_ok (a : attempt) : a_out a = AOk -> ~ failed a.
  Proof. intros E (w & e & s & E'). congruence. Qed.
  Lemma not_failed_raise (a : attempt) : a_out a = ARaise -> ~ failed a.
  Proof. intros E (w & e & s & E'). congruence. Qed.

  Lemma can_skip_prefer ssl d exc :
    can_skip_after (str "prefer") ssl d exc =
      is_ssl ssl (Some false) && (match d with DFalse => true | _ => false end || exc).
  Proof.
    unfold can_skip_after. change (seqb (str "prefer") (str "prefer")) with true.
    change (seqb (str "prefer") (str "allow")) with false. cbn [andb].
    destruct (is_ssl ssl (Some false)), d, exc; reflexivity.
  Qed.
  Lemma can_skip_allow ssl d exc :
    can_skip_after (str "allow") ssl d exc = exc && is_ssl ssl None.
  Proof.
    unfold can_skip_after. change (seqb (str "allow") (str "prefer")) with false.
    change (seqb (str "allow") (str "allow")) with true. cbn [andb]. destruct exc; reflexivity.
  Qed.
  Lemma can_skip_require ssl d exc : can_skip_after (str "require") ssl d exc = false.
  Proof. unfold can_skip_after. cbn. destruct exc; reflexivity. Qed.
  Lemma can_skip_disable ssl d exc : can_skip_after (str "disable") ssl d exc = false.
  Proof. unfold can_skip_after. cbn. destruct exc; reflexivity. Qed.

  Definition over (r : est H) : Prop := match r with NotConnected _ => False | _ => True end.

  Lemma loop_tried mode out : known mode -> forall (hs : list H) n fs ev log r,
    establish_loop mode out n false (flat_map (cands mode) hs) fs = (ev, log, r) ->
    tried mode hs log /\ (~ over r -> tried_all mode hs log).
  Proof.
    intros K. induction hs as [|h hs IH]; intros n fs ev log r.
    { cbn. intros [= <- <- <-]. split; constructor. }
    cbn [flat_map].
    assert (Step : forall ssl rest n fs ev log r,
      establish_loop mode out n false ((ssl, h) :: rest) fs = (ev, log, r) ->
      exists a, a_ssl a = ssl /\ a_host a = h /\
        ((~ failed a /\ log = [a] /\ over r) \/
         (exists w exc sock ev' log', a_out a = AFail w exc sock /\ log = a :: log' /\
            establish_loop mode out (S n) (can_skip_after mode ssl (a_did a) exc) rest (fs ++ [a]) = (ev', log', r)))).
    { intros ssl rest n0 fs0 ev0 log0 r0. cbn [establish_loop].
      destruct (connect n0 ssl (out n0)) as [[ce d] o] eqn:E.
      set (a := {| a_num := n0; a_ssl := ssl; a_host := h; a_did := d; a_out := o |}).
      intros EL. exists a. split; auto. split; auto. destruct o as [|w exc sock|].
      - injection EL as <- <- <-. left. split; [now apply not_failed_ok|split; cbn; auto].
      - right. destruct (establish_loop mode out (S n0) _ rest _) as [[ev' log'] r'] eqn:EL'.
        injection EL as <- <- <-. exists w, exc, sock, ev', log'. auto.
      - injection EL as <- <- <-. left. split; [now apply not_failed_raise|split; cbn; auto]. }
    destruct K as [-> | [-> | [-> | -> ]]]; intros EL;
      [change (cands (str "allow") h) with [(@None bool, h); (Some true, h)] in EL
      |change (cands (str "prefer") h) with [(Some false, h); (@None bool, h)] in EL
      |change (cands (str "require") h) with [(Some true, h)] in EL
      |change (cands (str "disable") h) with [(@None bool, h)] in EL]; cbn [app] in EL;
      apply Step in EL as (a & Sa & Ha & [(NF & -> & Ov)|(w & exc & sock & ev' & log' & Oa & -> & EL)]).
    - (* allow, at once *)
      split; [|tauto]. apply (td_host _ h hs [a] []); [|constructor|intros C; now contradict C].
      apply tr_allow1; auto. tauto.
    - rewrite can_skip_allow in EL. change (is_ssl None None) with true in EL. rewrite andb_true_r in EL.
      assert (Fa : failed a) by (exists w, exc, sock; auto).
      destruct exc.
      + rewrite loop_skip in EL. apply IH in EL as (T & TA).
        assert (R : tries (str "allow") h [a]) by (apply tr_allow1; auto; intros _; exists w, sock; auto).
        split; [apply (td_host _ h hs [a] log'); auto|intros NO; apply (ta_host _ h hs [a] log'); auto].
      + assert (NB : ~ by_exception a) by (intros (w' & s' & E); congruence).
        apply Step in EL as (b & Sb & Hb & [(NF & -> & Ov)|(w2 & exc2 & sock2 & ev2 & log2 & Ob & -> & EL)]).
        * split; [|tauto]. apply (td_host _ h hs [a; b] []); [|constructor|intros C; now contradict C].
          apply tr_allow2; auto.
        * rewrite can_skip_allow in EL. change (is_ssl (Some true) None) with false in EL. rewrite andb_false_r in EL.
          apply IH in EL as (T & TA).
          assert (R : tries (str "allow") h [a; b]) by (apply tr_allow2; auto).
          assert (Fb : failed b) by (exists w2, exc2, sock2; auto).
          split; [apply (td_host _ h hs [a; b] log2); auto|intros NO; apply (ta_host _ h hs [a; b] log2); auto].
    - split; [|tauto]. apply (td_host _ h hs [a] []); [|constructor|intros C; now contradict C].
      apply tr_prefer1; auto. tauto.
    - rewrite can_skip_prefer in EL. change (is_ssl (Some false) (Some false)) with true in EL. cbn [andb] in EL.
      assert (Fa : failed a) by (exists w, exc, sock; auto).
      destruct (match a_did a with DFalse => true | _ => false end || exc) eqn:ESk.
      + rewrite loop_skip in EL. apply IH in EL as (T & TA).
        assert (R : tries (str "prefer") h [a]).
        { apply tr_prefer1; auto. intros _. destruct exc; [right; exists w, sock; auto|left].
          unfold said_no. destruct (a_did a); auto; discriminate. }
        split; [apply (td_host _ h hs [a] log'); auto|intros NO; apply (ta_host _ h hs [a] log'); auto].
      + apply orb_false_iff in ESk as (E1 & ->).
        assert (NB : ~ by_exception a) by (intros (w' & s' & E); congruence).
        assert (NS : ~ said_no a) by (unfold said_no; intros E; rewrite E in E1; discriminate).
        apply Step in EL as (b & Sb & Hb & [(NF & -> & Ov)|(w2 & exc2 & sock2 & ev2 & log2 & Ob & -> & EL)]).
        * split; [|tauto]. apply (td_host _ h hs [a; b] []); [|constructor|intros C; now contradict C].
          apply tr_prefer2; auto.
        * rewrite can_skip_prefer in EL. change (is_ssl None (Some false)) with false in EL. cbn [andb] in EL.
          apply IH in EL as (T & TA).
          assert (R : tries (str "prefer") h [a; b]) by (apply tr_prefer2; auto).
          assert (Fb : failed b) by (exists w2, exc2, sock2; auto).
          split; [apply (td_host _ h hs [a; b] log2); auto|intros NO; apply (ta_host _ h hs [a; b] log2); auto].
    - split; [|tauto]. apply (td_host _ h hs [a] []); [|constructor|intros C; now contradict C].
      apply tr_require; auto.
    - rewrite can_skip_require in EL. apply IH in EL as (T & TA).
      assert (R : tries (str "require") h [a]) by (apply tr_require; auto).
      assert (Fa : failed a) by (exists w, exc, sock; auto).
      split; [apply (td_host _ h hs [a] log'); auto|intros NO; apply (ta_host _ h hs [a] log'); auto].
    - split; [|tauto]. apply (td_host _ h hs [a] []); [|constructor|intros C; now contradict C].
      apply tr_disable; auto.
    - rewrite can_skip_disable in EL. apply IH in EL as (T & TA).
      assert (R : tries (str "disable") h [a]) by (apply tr_disable; auto).
      assert (Fa : failed a) by (exists w, exc, sock; auto).
      split; [apply (td_host _ h hs [a] log'); auto|intros NO; apply (ta_host _ h hs [a] log'); auto].
  Qed.

  (** the mode chosen and the servers *)
  Lemma establish_inv sslmode factories out ev log r :
    establish sslmode factories out = Ok (ev, log, r) ->
    let mode := match sslmode with Some (c :: m) => c :: m | _ => str "prefer" end in
    let hs := match factories with Some f => f | None => [] end in
    known mode /\ establish_loop mode out O false (flat_map (cands mode) hs) [] = (ev, log, r).
  Proof.
    unfold establish. cbv zeta. intros E.
    destruct (candidates _ _) as [l|e] eqn:EC; [|discriminate].
    cbn [bind] in E. injection E as E. apply candidates_spec in EC as (K & ->). auto.
  Qed.

  (** every attempt of a tried list has the ssl value of the mode *)
  Lemma tries_ssl mode (h : H) l a : tries mode h l -> List.In a l ->
    (mode = str "require" -> a_ssl a = Some true) /\ (mode = str "disable" -> a_ssl a = None).
  Proof.
    intros T I. destruct T; subst mode; cbn in I; intuition (subst; try discriminate; auto).
  Qed.
  Lemma tried_ssl mode (hs : list H) l a : tried mode hs l -> List.In a l ->
    (mode = str "require" -> a_ssl a = Some true) /\ (mode = str "disable" -> a_ssl a = None).
  Proof.
    induction 1 as [|h hs l r T TD IH F]; [intros []|]. intros I. apply in_app_or in I as [I|I]; auto.
    eapply tries_ssl; eauto.
  Qed.
End Loop.
