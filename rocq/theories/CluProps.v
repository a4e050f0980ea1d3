(** CluProps.v: C69, C70, C71, C72, C73 *)
From Verif Require Import Base BaseProof PyStr PyStrProof PyDict PyDictProof PyInt ConfModel PgcModel CluModel CluSpec CluProof CluProof2 CluProof3 CluProof4 CluProof5.

Section C69.
Variable U : unicode. Variable dv : decimals. Variable E : env.
Variable dir : text. Variable postmaster postgres initdb pg_ctl : option text. Variable ancient : bool.

(** reload, stop, shutdown and kill send SIGHUP, SIGTERM, SIGINT and SIGKILL, once, to the process of the pid file, or,
    if that cannot be read, to the child, and to nothing else; a process that does not exist is no error *)
Theorem C69_signal : forall op sig, In (op, sig) [(reload U dv E, 1); (stop U dv E, 15); (shutdown U dv E, 2); (kill U dv E, 9)] ->
  forall w w' r, op w = (w', r) ->
  exists a t, a = e_pid E (w_hist w) /\ w_proc w' = w_proc w /\ w_hist w' = w_hist w ++ EPid a :: t /\
  ((exists l e, a = PLine l /\ py_int U dv 10 l = Err e /\ t = [] /\ r = Raise XValue)
   \/ (target U dv a (w_proc w) None /\ t = [] /\ r = Ret tt)
   \/ (exists n, target U dv a (w_proc w) (Some n) /\
       ((t = [EKill n sig None] /\ r = Ret tt) \/ (t = [EKill n sig (Some 3)] /\ r = Ret tt)
        \/ (exists err, err <> 3 /\ t = [EKill n sig (Some err)] /\ r = Raise (XOS err))))).
Proof.
  intros op sig I w w' r H. cbn [In] in I. repeat (destruct I as [I|I]; [injection I as <- <-; exact (signal_spec U dv E _ w w' r H)|]). contradiction.
Qed.

(** running() sends no signal but 0, and answers what it has just seen *)
Theorem C69_running : forall w w' r, running U dv E w = (w', r) ->
  exists t, w_hist w' = w_hist w ++ t /\ Forall looks t
  /\ (r = Ret true -> up_seen U dv t)
  /\ (r = Ret false -> down_seen U dv t /\ ~ child_alive w')
  /\ (forall x, r = Raise x -> (exists a l e, t = a ++ [EPid (PLine l)] /\ py_int U dv 10 l = Err e /\ x = XValue)
                               \/ (exists a n err, t = a ++ [EKill n 0 (Some err)] /\ err <> 3 /\ x = XOS err)).
Proof.
  intros w w' r H. apply running_spec in H as (t & Et & V). exists t. split; [assumption|]. split; [eapply seen_looks; exact V|]. repeat split.
  - intros ->. eapply seen_up. exact V.
  - subst r. eapply proj1, seen_down. exact V.
  - intros (p & P & R). subst r. apply seen_down in V as (_ & V). exact (V p P R).
  - intros x ->. eapply seen_raise. exact V.
Qed.

(** if nothing changes outside, running() tells the truth *)
Theorem C69_truth : forall server w, quiet U dv E (w_hist w) server -> (forall p, w_proc w = Some p -> p_rc p = None) ->
  exists w', running U dv E w = (w', Ret (match server with Some _ => true | None => false end)).
Proof.
  intros server w (Qp & Qk & Qo) C. destruct (running U dv E w) as [w' r] eqn:H. exists w'. f_equal.
  assert (F : forall u w0 w1 r1, w_hist w0 = w_hist w ++ u -> running_file U dv E w0 = (w1, r1) -> r1 = Ret (match server with Some _ => true | None => false end)).
  { intros u w0 w1 r1 Eh R. unfold running_file, get_pid_from_file, bindM, ask in R. cbv beta zeta in R. rewrite Eh in R. specialize (Qp u). destruct (e_pid E (w_hist w ++ u)) as [l|err], server as [n|]; try contradiction.
    - rewrite Qp in R. unfold ret in R. rewrite kill_eq in R. cbn [w_hist] in R. rewrite <- app_assoc, Qk, Z.eqb_refl in R. injection R as <- <-. reflexivity.
    - injection R as <- <-. reflexivity. }
  unfold running, bindM at 1, get_proc in H. destruct (w_proc w) as [p|] eqn:D.
  - unfold poll in H. rewrite (C p eq_refl) in H. unfold bindM at 1 2, ask in H. cbv beta zeta in H. destruct (e_poll E (w_hist w)) as [rc|] eqn:PO.
    + assert (server = None) as -> by (destruct server as [n|]; [|reflexivity]; pose proof (proj2 (Qo []) ltac:(discriminate)) as X; rewrite app_nil_r in X; congruence).
      unfold bindM at 1, set_proc at 1 in H. cbv beta iota delta [ret] in H. unfold bindM, get_pid_from_file, bindM, ask in H. cbv beta zeta in H. cbn [w_hist] in H. specialize (Qp [EPoll (Some rc)]). destruct (e_pid E (w_hist w ++ [EPoll (Some rc)])); [contradiction|]. injection H as <- <-. reflexivity.
    + assert (server <> None) as N by (apply (Qo []); now rewrite app_nil_r). destruct server; [|congruence]. injection H as <- <-. reflexivity.
  - eapply (F []); [now rewrite app_nil_r|exact H].
Qed.

(** start(): nothing is done if the server is running; else one process is made, with the daemon and the data directory *)
Theorem C70_start : forall w w' r, start U dv E dir postmaster postgres [] w = (w', r) ->
  exists t0 t, w_hist w' = w_hist w ++ t0 ++ t /\ Forall looks t0 /\
  ((up_seen U dv t0 /\ t = [] /\ r = Ret tt)
   \/ (t = [] /\ ((exists a l e, t0 = a ++ [EPid (PLine l)] /\ py_int U dv 10 l = Err e /\ r = Raise XValue)
                   \/ (exists a n err, t0 = a ++ [EKill n 0 (Some err)] /\ err <> 3 /\ r = Raise (XOS err))
                   \/ (down_seen U dv t0 /\ postmaster = None /\ postgres = None /\ r = Raise XType)))
   \/ (down_seen U dv t0 /\ exists path, (postmaster = Some path \/ (postmaster = None /\ postgres = Some path)) /\
        ((exists n, t = [ESpawn [path; str "-D"; dir] (inl n)] /\ r = Ret tt /\ w_proc w' = Some {| p_pid := n; p_rc := None |})
         \/ (exists err, t = [ESpawn [path; str "-D"; dir] (inr err)] /\ r = Raise (XOS err))))).
Proof.
  assert (DP : forall path, daemon_path postmaster postgres = Some path -> postmaster = Some path \/ (postmaster = None /\ postgres = Some path)) by (unfold daemon_path; destruct postmaster; auto).
  intros w w' r H. apply start_spec in H as (t0 & d & t & Eh & C). exists t0, t. split; [assumption|].
  destruct C as [(x & V & -> & -> & _) | [(V & -> & -> & _) | (V & [(N & _) | [(_ & N & -> & -> & _) | (path & _ & P & [(n & -> & -> & X) | (err & -> & -> & X)])]])]]; (split; [exact (seen_looks _ _ _ _ _ _ V)|]).
  - right. left. split; [reflexivity|]. apply seen_raise in V as [(a & l & e & -> & P & ->) | (a & n & err & -> & N & ->)]; eauto 10.
  - left. split; [eapply seen_up; exact V|auto].
  - congruence.
  - right. left. split; [reflexivity|]. right. right. split; [eapply proj1, seen_down; exact V|]. unfold daemon_path in N. destruct postmaster; [discriminate|auto].
  - right. right. split; [eapply proj1, seen_down; exact V|]. exists path. split; [auto|]. left. eauto.
  - right. right. split; [eapply proj1, seen_down; exact V|]. exists path. split; [auto|]. right. eauto.
Qed.

(** wait_until_started() only looks; it returns when a running server has answered at the configured address, and
    raises for the reasons listed in [started] only: the daemon ended, it was never started, the timeout passed, ... *)
Theorem C70_started : forall fuel T d w w' r, wait_until_started U dv E ancient fuel T d w = (w', r) -> r <> Raise XFuel ->
  exists s t, w_hist w' = w_hist w ++ ETime s :: t /\ Forall waits t /\ started U dv ancient s T t (w_proc w') r.
Proof. exact (wait_started_spec U dv E ancient). Qed.

(** it ends in time *)
Theorem C70_started_ends : clock_runs E -> clock_forward E -> forall fuel T d w w' r, 0 < d -> T <= (Z.of_nat fuel - 1) * d -> fuel <> O ->
  wait_until_started U dv E ancient fuel T d w = (w', r) -> r <> Raise XFuel.
Proof.
  intros CR CF fuel T d w w' r D B NZ H. unfold wait_until_started, bindM at 1, ask in H. cbv beta zeta in H. eapply (started_fuel U dv E ancient _ _ _ CR D fuel 0); [exact H| |lia|lia|assumption].
  cbn [w_hist]. intros u. rewrite <- app_assoc. pose proof (CF (w_hist w) (e_time E (w_hist w)) u). lia.
Qed.

(** restart() makes at most one process, after the old server was seen to be down, sends at most one SIGTERM and
    returns when the server has answered *)
Theorem C70_restart : forall fuel settings T d w w' r, restart U dv E dir postmaster postgres ancient fuel settings T d w = (w', r) -> r <> Raise XFuel ->
  exists t, w_hist w' = w_hist w ++ t /\ restarted U dv ancient T t (w_proc w') r.
Proof. exact (restart_spec U dv E ancient dir postmaster postgres). Qed.

(** wait_until_stopped() only looks; it returns when the server was seen to be down, without a living child *)
Theorem C71_stopped : forall fuel T d w w' r, wait_until_stopped U dv E fuel T d w = (w', r) -> r <> Raise XFuel ->
  exists s t, w_hist w' = w_hist w ++ ETime s :: t /\ Forall waits t /\ stopped U dv s T t (w_proc w') r.
Proof. exact (wait_stopped_spec U dv E). Qed.
(** leaving a with block sends SIGTERM (15), once, to the process of the pid file or the child, and nothing else, and then
    waits as wait_until_stopped() *)
Theorem C71_leave : forall fuel T d w w' r, leave U dv E fuel T d w = (w', r) -> r <> Raise XFuel ->
  exists a t u, w_hist w' = w_hist w ++ EPid a :: t ++ u /\
  ((exists l e, a = PLine l /\ py_int U dv 10 l = Err e /\ t = [] /\ u = [] /\ r = Raise XValue)
   \/ (exists n err, target U dv a (w_proc w) (Some n) /\ err <> 3 /\ t = [EKill n 15 (Some err)] /\ u = [] /\ r = Raise (XOS err))
   \/ (((target U dv a (w_proc w) None /\ t = []) \/ (exists n, target U dv a (w_proc w) (Some n) /\ (t = [EKill n 15 None] \/ t = [EKill n 15 (Some 3)]))) /\
       exists s v, u = ETime s :: v /\ Forall waits v /\ stopped U dv s T v (w_proc w') r)).
Proof.
  intros fuel T d w w' r H NF. unfold leave in H. apply bindM_inv in H as [(w1 & [] & H1 & H2) | (x & H1 & ->)].
  - apply (signal_spec U dv E 15) in H1 as (a & t & _ & P & Eh & C). apply (wait_stopped_spec U dv E) in H2 as (s & v & Ev & W & S); [|assumption].
    exists a, t, (ETime s :: v). rewrite Ev, Eh, <- app_assoc. split; [reflexivity|]. right. right. split; [|eauto].
    destruct C as [(l & e & _ & _ & _ & X) | [(X & -> & _) | (n & X & [(-> & _) | [(-> & _) | (err & _ & _ & Y)]])]]; try discriminate; eauto 10.
  - apply (signal_spec U dv E 15) in H1 as (a & t & _ & P & Eh & C). exists a, t, []. rewrite app_nil_r. split; [assumption|].
    destruct C as [(l & e & -> & X & -> & Y) | [(X & -> & Y) | (n & X & [(-> & Y) | [(-> & Y) | (err & NE & -> & Y)]])]]; try discriminate; eauto 10.
Qed.
Theorem C71_stopped_ends : clock_runs E -> clock_forward E -> forall fuel T d w w' r, 0 < d -> T <= (Z.of_nat fuel - 1) * d -> fuel <> O ->
  wait_until_stopped U dv E fuel T d w = (w', r) -> r <> Raise XFuel.
Proof.
  intros CR CF fuel T d w w' r D B NZ H. unfold wait_until_stopped, bindM at 1, ask in H. cbv beta zeta in H. eapply (stopped_fuel U dv E _ _ _ CR D fuel 0); [exact H| |lia|lia|assumption].
  cbn [w_hist]. intros u. rewrite <- app_assoc. pose proof (CF (w_hist w) (e_time E (w_hist w)) u). lia.
Qed.

(** for a server that is a child and removes its pid file when it ends: it returns, or the timeout passed *)
Lemma child_poll p w w' r : p_rc p = None \/ (exists rc, In (EPoll (Some rc)) (w_hist w)) -> w_proc w = Some p -> poll E p w = (w', r) ->
  exists q rc, w_proc w' = Some q /\ r = Ret rc /\ (p_rc q = None \/ exists rc, In (EPoll (Some rc)) (w_hist w')) /\ (rc <> None -> exists rc, In (EPoll (Some rc)) (w_hist w')).
Proof.
  intros I D H. unfold poll in H. destruct (p_rc p) as [rc|] eqn:R.
  - injection H as <- <-. destruct I as [I|I]; [discriminate|]. exists p, (Some rc). auto.
  - unfold bindM, ask in H. cbv beta zeta in H. destruct (e_poll E (w_hist w)) as [rc|].
    + injection H as <- <-. cbn [w_proc w_hist]. exists {| p_pid := p_pid p; p_rc := Some rc |}, (Some rc). assert (X : exists rc0, In (EPoll (Some rc0)) (w_hist w ++ [EPoll (Some rc)])) by (exists rc; apply in_or_app; right; now left). repeat split; auto.
    + injection H as <- <-. cbn [w_proc w_hist]. exists p, None. split; [assumption|]. split; [reflexivity|]. split; [now left|congruence].
Qed.
Theorem C71_child : (forall h rc, In (EPoll (Some rc)) h -> exists err, e_pid E h = PErr err) ->
  forall fuel T d w w' r, child_alive w -> wait_until_stopped U dv E fuel T d w = (w', r) -> r = Ret tt \/ r = Raise XTimeout \/ r = Raise XFuel.
Proof.
  intros HP fuel T d w w' r (p & D & R) H. unfold wait_until_stopped, bindM at 1, ask in H. cbv beta zeta in H.
  assert (G : forall fuel s w w' r p, w_proc w = Some p -> p_rc p = None \/ (exists rc, In (EPoll (Some rc)) (w_hist w)) -> stopped_loop U dv E fuel s T d w = (w', r) -> r = Ret tt \/ r = Raise XTimeout \/ r = Raise XFuel).
  { clear - HP. intros fuel s. induction fuel as [|fuel IH]; intros w w' r p D I H; [injection H as <- <-; auto|]. cbn [stopped_loop] in H.
    assert (RS : exists w1 q b, running U dv E w = (w1, Ret b) /\ (b = true -> w_proc w1 = Some q /\ (p_rc q = None \/ exists rc, In (EPoll (Some rc)) (w_hist w1)))).
    { unfold running, bindM at 1, get_proc. rewrite D. destruct (poll E p w) as [w1 r1] eqn:P. destruct (child_poll p w w1 r1 I D P) as (q & rc & D1 & -> & I1 & I2). unfold bindM at 1. rewrite P. destruct rc as [rc|].
      - destruct (I2 ltac:(discriminate)) as (rc' & I3). destruct (HP _ _ I3) as (err & X). unfold bindM at 1, get_pid_from_file, bindM, ask. rewrite X. cbv beta zeta iota. eexists _, q, false. split; [reflexivity|discriminate].
      - exists w1, q, true. split; [reflexivity|]. auto. }
    destruct RS as (w1 & q & b & RS & X). unfold bindM at 1 in H. rewrite RS in H. destruct b; cbn [negb] in H; [|injection H as <- <-; auto]. destruct (X eq_refl) as (D1 & I1).
    unfold bindM at 1, get_proc in H. rewrite D1 in H. destruct (poll E q w1) as [w2 r2] eqn:P. destruct (child_poll q w1 w2 r2 I1 D1 P) as (q2 & rc & D2 & -> & I2 & _). assert (B : bindM (poll E q) (fun _ => ret tt) w1 = (w2, Ret tt)) by (unfold bindM; now rewrite P). apply bindM_inv in H as [(w3 & u & H1 & H) | (x & H1 & _)]; rewrite B in H1; [|discriminate]. injection H1 as <- <-. unfold bindM at 1, ask in H. cbv beta zeta in H.
    destruct (T <=? _); [injection H as <- <-; auto|]. unfold bindM, note in H. cbn [w_hist w_proc] in H. eapply IH; [| |exact H]; cbn [w_hist w_proc]; [exact D2|]. destruct I2 as [I2|(rc' & I2)]; [now left|right]. exists rc'. apply in_or_app. left. apply in_or_app. now left. }
  eapply G; [| |exact H]; cbn [w_proc]; [exact D|]. now left.
Qed.

(** drop(): files are removed only when the server was seen to be down, or after SIGINT and SIGKILL and two whole
    timeouts, with a warning; never before; in the order that os.walk gives *)
Theorem C71_drop : forall fuel T d w w' r, drop U dv E dir fuel T d w = (w', r) -> r <> Raise XFuel ->
  exists t, w_hist w' = w_hist w ++ t /\ dropped U dv dir T t r.
Proof. exact (drop_spec U dv E dir). Qed.
(** that order removes the whole directory and nothing else, if it has no symbolic links to directories *)
Theorem C71_tree : forall es f, dir <> [] -> py_endswith [47] dir = false -> good_tree (NDir es) ->
  (forall q k, (q = dir \/ inside dir q = true) -> (In (q, k) f <-> In (q, k) (entries dir (NDir es)))) ->
  fs_run (removals dir (walk_node dir (NDir es))) f = Some (filter (fun e => negb (seqb dir (fst e) || inside dir (fst e))) f).
Proof. intros es f A B. apply drop_tree. split; assumption. Qed.

(** init(): the command has the data directory and the options in the order given, UTF-8 by default, and the extra
    arguments last; the password goes through a file that is removed in every case, the command has only its name;
    a return code that is not 0 is InitDBError *)
Theorem C72_init : forall password kw exe w w' r, known_kw kw -> init_program initdb pg_ctl exe -> init E dir initdb pg_ctl password kw w = (w', r) ->
  let cmd pwf := exe ++ [str "-D"; dir] ++ command_options kw ++ pwf ++ extra_of kw in
  exists t, w_hist w' = w_hist w ++ t /\ w_proc w' = w_proc w /\
  match password with
  | None => exists q, t = [EInit (cmd []) q] /\ r = init_outcome q
  | Some pw => exists name,
      (exists n, t = [ETemp name; EWrite name pw (Some n); ETempGone name] /\ r = Raise (XOther n))
      \/ (exists q, t = [ETemp name; EWrite name pw None; EInit (cmd [str "--pwfile=" ++ name]) q; ETempGone name] /\ r = init_outcome q)
  end.
Proof.
  intros password kw exe w w' r K P H. cbv zeta. pose proof (init_spec E dir initdb pg_ctl password kw exe w w' r K P H) as G. cbv zeta in G. destruct G as (t & -> & G). exists t. split; [reflexivity|]. split; [reflexivity|]. exact G.
Qed.
(** an unknown keyword is refused before anything is done *)
Theorem C72_unknown : forall password kw k v w, In (k, v) kw -> ~ In k (map str ["encoding"; "authentication"; "user"; "logfile"; "extra_arguments"]%string) ->
  (exists exe, init_program initdb pg_ctl exe) -> init E dir initdb pg_ctl password kw w = (w, Raise XType).
Proof.
  intros password kw k v w I N X. apply (init_unknown E dir initdb pg_ctl password kw k v); try assumption.
  - unfold flag. destruct (seqb_spec k (str "encoding")) as [->|]; [exfalso; apply N; now left|]. destruct (seqb_spec k (str "authentication")) as [->|]; [exfalso; apply N; right; now left|]. destruct (seqb_spec k (str "user")) as [->|]; [exfalso; apply N; right; right; now left|]. reflexivity.
  - intros ->. apply N. right. right. right. now left.
  - intros ->. apply N. right. right. right. right. now left.
Qed.
(** without initdb and pg_ctl too *)
Theorem C72_no_program : forall password kw w, initdb = None -> pg_ctl = None -> init E dir initdb pg_ctl password kw w = (w, Raise XInit).
Proof. intros password kw w -> ->. reflexivity. Qed.

(** address(): the port, and of the listed addresses localhost, then 127.0.0.1, then ::1, then the first *)
Theorem C73_address : forall content, address_of U content =
  (match config_get U (str "listen_addresses") content with Some a => Some (choose_host U a) | None => None end, config_get U (str "port") content).
Proof. exact (address_eq U). Qed.
Theorem C73_host : unicode_ok U -> forall items, items <> [] -> Forall (fun x => ~ In 44 x /\ Forall (fun c => 0 <= c < 128) x) items ->
  preferred items (choose_host U (py_join [44] items)).
Proof. intros UO items. now apply host_spec. Qed.
(** connect(): nothing is tried if the server is not running; else one connection, to the configured address, or
    localhost and 5432 *)
Theorem C73_connect : forall user w w' r, connect U dv E user w = (w', r) ->
  exists t0 t, w_hist w' = w_hist w ++ t0 ++ t /\ Forall looks t0 /\
  ((down_seen U dv t0 /\ t = [] /\ r = Raise XNotRunning)
   \/ (exists x, t = [] /\ r = Raise x /\ (x = XValue \/ exists err, x = XOS err))
   \/ (up_seen U dv t0 /\
       ((exists err, t = [EConf (inr err)] /\ r = Raise (XOS err))
        \/ (exists c host port q, t = [EConf (inl c); EConnect host port user q]
             /\ (exists h p, address_of U c = (h, p) /\ (host = match h with Some (x :: y) => x :: y | _ => str "localhost" end) /\ (port = match p with Some (x :: y) => x :: y | _ => str "5432" end))
             /\ r = match q with PConnected => Ret tt | PCannot fs => Raise (XCannot fs) | POther n => Raise (XOther n) end)))).
Proof.
  intros user w w' r H. apply connect_spec in H as (t0 & t & Eh & C). exists t0, t. split; [assumption|].
  destruct C as [(V & -> & ->) | [(x & V & -> & ->) | (V & C)]]; (split; [exact (seen_looks _ _ _ _ _ _ V)|]).
  - left. split; [eapply proj1, seen_down; exact V|auto].
  - right. left. exists x. split; [reflexivity|]. split; [reflexivity|]. apply seen_raise in V as [(a & l & e & _ & _ & ->) | (a & n & err & _ & _ & ->)]; eauto.
  - right. right. split; [eapply seen_up; exact V|]. destruct C as [C | (c & q & -> & ->)]; [now left|right]. eexists c, _, _, q. split; [reflexivity|]. split; [|reflexivity].
    destruct (address_of U c) as [h p]. exists h, p. split; [reflexivity|]. split; [destruct h as [[|]|]; reflexivity|destruct p as [[|]|]; reflexivity].
Qed.
End C69.
Print Assumptions C69_signal.
Print Assumptions C69_running.
Print Assumptions C69_truth.
Print Assumptions C70_start.
Print Assumptions C70_started.
Print Assumptions C70_started_ends.
Print Assumptions C70_restart.
Print Assumptions C71_stopped.
Print Assumptions C71_leave.
Print Assumptions C71_stopped_ends.
Print Assumptions C71_child.
Print Assumptions C71_drop.
Print Assumptions C71_tree.
Print Assumptions C72_init.
Print Assumptions C72_unknown.
Print Assumptions C72_no_program.
Print Assumptions C73_address.
Print Assumptions C73_host.
Print Assumptions C73_connect.

(** ** environments *)
Definition no_dv : decimals := fun _ => None.
(** the clock of an environment that only advances by sleeping *)
Definition clock (h : list event) : Z :=
  fold_left (fun c e => match e with ETime a => Z.max c a | ESleep d => c + Z.max 0 d | _ => c end) h 0.
Lemma clock_from h : forall c, fold_left (fun c e => match e with ETime a => Z.max c a | ESleep d => c + Z.max 0 d | _ => c end) h c >= c.
Proof. induction h as [|e h IH]; intros c; cbn [fold_left]; [lia|]. destruct e; try apply IH; eapply Zge_trans; try apply IH; lia. Qed.
Definition conf_text : text := str "listen_addresses = '10.0.0.1,LocalHost'" ++ [10] ++ str "port = 6543" ++ [10].
Definition refused : failure := {| x_id := 1; x_undefined := false; x_authspec := true; x_config := false; x_notready := false |}.
Definition starting : failure := {| x_id := 2; x_undefined := false; x_authspec := false; x_config := false; x_notready := true |}.
Definition spawned (h : list event) : bool := existsb (fun e => match e with ESpawn _ _ => true | _ => false end) h.
Definition signalled (h : list event) : bool := existsb (fun e => match e with EKill _ s None => negb (s =? 0) | _ => false end) h.
Definition tried (h : list event) : bool := existsb (fun e => match e with EConnect _ _ _ _ => true | _ => false end) h.
(** a server that is started by the cluster, needs a while, and ends on any signal *)
Definition world_env (conf : text) : env := {|
  e_pid := fun h => if (tried h && negb (signalled h))%bool then PLine (str "77" ++ [10]) else PErr 2;
  e_poll := fun h => if signalled h then Some 0 else None;
  e_kill := fun h n s => if ((n =? 77) && spawned h && negb (signalled h))%bool then None else Some 3;
  e_spawn := fun _ _ => inl 77;
  e_time := clock;
  e_conf := fun _ => inl conf;
  e_connect := fun h _ _ _ => if tried h then PCannot [refused] else PCannot [starting];
  e_walk := fun _ => walk_node (str "/d") (NDir [(str "PG_VERSION", NFile); (str "base", NDir [(str "1", NDir []); (str "2", NDir [(str "x", NFile)])])]);
  e_unlink := fun _ _ => None;
  e_rmdir := fun _ _ => None;
  e_temp := fun _ => str "/tmp/pw";
  e_write := fun _ _ _ => None;
  e_init := fun _ _ => inl 0
|}.
Definition w0 : world := {| w_proc := None; w_hist := [] |}.
Local Notation AU := ascii_unicode.
Local Notation demo := (world_env conf_text).

Example clock_demo : clock_runs demo /\ clock_forward demo.
Proof.
  split.
  - intros h a t d u. cbn [e_time world_env]. unfold clock. rewrite !fold_left_app. cbn [fold_left].
    eapply Zge_trans; [apply clock_from|]. match goal with |- ?x + _ >= _ => assert (x >= a) end; [|lia]. eapply Zge_trans; [apply clock_from|]. lia.
  - intros h a t. cbn [e_time world_env]. unfold clock. rewrite !fold_left_app. cbn [fold_left]. eapply Zge_trans; [apply clock_from|]. lia.
Qed.
(** the cluster is started, waited for, stopped and waited for, and dropped *)
Example life_demo :
  let run := bindM (start AU no_dv demo (str "/d") None (Some (str "/bin/postgres")) []) (fun _ =>
             bindM (wait_until_started AU no_dv demo false 300 10000 50) (fun _ =>
             bindM (stop AU no_dv demo) (fun _ =>
             bindM (wait_until_stopped AU no_dv demo 300 10000 50) (fun _ =>
             drop AU no_dv demo (str "/d") 300 10000 50)))) in
  snd (run w0) = Ret tt /\ signals (w_hist (fst (run w0))) = [(77, 15)]
  /\ filter (fun e => match e with ESpawn _ _ | EUnlink _ _ | ERmdir _ _ | EConnect _ _ _ _ => true | _ => false end) (w_hist (fst (run w0))) =
     [ESpawn [str "/bin/postgres"; str "-D"; str "/d"] (inl 77);
      EConnect (str "localhost") (str "6543") ping_user (PCannot [starting]);
      EConnect (str "localhost") (str "6543") ping_user (PCannot [refused]);
      EUnlink (str "/d/base/2/x") None; ERmdir (str "/d/base/1") None; ERmdir (str "/d/base/2") None;
      EUnlink (str "/d/PG_VERSION") None; ERmdir (str "/d/base") None; ERmdir (str "/d") None].
Proof. vm_compute. repeat split; reflexivity. Qed.
(** a server that does not stop: SIGINT, SIGKILL, and the directory goes with a warning *)
Definition deaf : env :=
  {| e_pid := fun _ => PLine (str "5" ++ [10]); e_poll := e_poll demo; e_kill := fun _ _ _ => None; e_spawn := e_spawn demo; e_time := clock; e_conf := e_conf demo;
     e_connect := e_connect demo; e_walk := fun _ => []; e_unlink := e_unlink demo; e_rmdir := e_rmdir demo; e_temp := e_temp demo; e_write := e_write demo; e_init := e_init demo |}.
Example drop_deaf : snd (drop AU no_dv deaf (str "/d") 5 3 1 w0) = Ret tt
  /\ signals (w_hist (fst (drop AU no_dv deaf (str "/d") 5 3 1 w0))) = [(5, 2); (5, 9)]
  /\ In EWarn (w_hist (fst (drop AU no_dv deaf (str "/d") 5 3 1 w0))).
Proof. split; [vm_compute; reflexivity|]. split; [vm_compute; reflexivity|]. vm_compute. repeat (first [left; reflexivity | right]). Qed.
Example quiet_deaf : quiet AU no_dv {| e_pid := fun _ => PLine (str "5" ++ [10]); e_poll := fun _ => None; e_kill := fun _ n _ => if 5 =? n then None else Some 3; e_spawn := e_spawn demo; e_time := clock; e_conf := e_conf demo;
     e_connect := e_connect demo; e_walk := fun _ => []; e_unlink := e_unlink demo; e_rmdir := e_rmdir demo; e_temp := e_temp demo; e_write := e_write demo; e_init := e_init demo |} [] (Some 5).
Proof. split; [intros t; vm_compute; reflexivity|]. split; [intros t n; reflexivity|]. intros t. split; [discriminate|reflexivity]. Qed.
Example restart_demo : let m := restart AU no_dv demo (str "/d") None (Some (str "/bin/postgres")) false 300 [] 10000 50 in
  snd (m w0) = Ret tt /\ spawned (w_hist (fst (m w0))) = true.
Proof. vm_compute. split; reflexivity. Qed.
Example init_demo : w_hist (fst (init demo (str "/d") (Some (str "/bin/initdb")) None (Some (str "secret")) [(str "user", KText (str "test")); (str "extra_arguments", KArgs [str "-N"])] w0)) =
  [ETemp (str "/tmp/pw"); EWrite (str "/tmp/pw") (str "secret") None;
   EInit (map str ["/bin/initdb"; "-D"; "/d"; "-U"; "test"; "-E"; "utf-8"; "--pwfile=/tmp/pw"; "-N"]%string) (inl 0); ETempGone (str "/tmp/pw")].
Proof. vm_compute. reflexivity. Qed.
Example known_demo : known_kw [(str "user", KText (str "test")); (str "extra_arguments", KArgs [str "-N"])].
Proof. apply Forall_cons; [left; eexists; split; [vm_compute; discriminate|reflexivity]|]. apply Forall_cons; [right; right; reflexivity|apply Forall_nil]. Qed.
Example tree_demo : good_tree (NDir [(str "PG_VERSION", NFile); (str "base", NDir [(str "1", NDir []); (str "2", NDir [(str "x", NLink false)])])]).
Proof.
  assert (GN : forall s, str s <> [] -> existsb (Z.eqb 47) (str s) = false -> good_name (str s)).
  { intros s A B. split; [assumption|]. intros I. rewrite (proj2 (existsb_exists _ _)) in B; [discriminate|]. exists 47. auto. }
  cbn [good_tree map fst]. repeat match goal with
    | |- _ /\ _ => split
    | |- NoDup (_ :: _) => constructor
    | |- NoDup [] => constructor
    | |- Forall good_name (_ :: _) => apply Forall_cons; [apply GN; [vm_compute; discriminate|vm_compute; reflexivity]|]
    | |- Forall _ [] => apply Forall_nil
    | |- True => exact Logic.I
    end; try reflexivity; try (cbn [In]; intros H; repeat destruct H as [H|H]; try contradiction; vm_compute in H; discriminate).
Qed.
Example host_demo : choose_host AU (str "10.0.0.1,127.0.0.1") = str "127.0.0.1" /\ choose_host AU (str "10.0.0.1") = str "10.0.0.1".
Proof. vm_compute. split; reflexivity. Qed.

(** ** what does not hold *)
(** a signal can go to a process that is not the server: the child has ended, it was waited for, its number may have
    been given to another process, and stop() still signals that number *)
Theorem C69_signal_refuted : ~ (forall U dv E w w' r n sig err, stop U dv E w = (w', r) -> In (EKill n sig err) (w_hist w') -> ~ In (EKill n sig err) (w_hist w) ->
  match w_proc w with Some p => p_rc p = None | None => True end).
Proof.
  intros H. set (w := {| w_proc := Some {| p_pid := 77; p_rc := Some 0 |}; w_hist := [] |}).
  specialize (H AU no_dv demo w). destruct (stop AU no_dv demo w) as [w' r] eqn:S.
  assert (X : w_hist w' = [EPid (PErr 2); EKill 77 15 (Some 3)]) by (vm_compute in S; injection S as <- <-; reflexivity).
  specialize (H w' r 77 15 (Some 3) eq_refl). rewrite X in H. specialize (H ltac:(right; now left) ltac:(intros [])). discriminate H.
Qed.
(** start() with settings raises AttributeError and starts nothing *)
Theorem C70_settings_refuted : ~ (forall U dv E dir pm pg settings w, snd (start U dv E dir pm pg settings w) <> Raise XAttr).
Proof. intros H. apply (H AU no_dv demo (str "/d") None (Some (str "/bin/postgres")) [(str "port", str "6543")] w0). vm_compute. reflexivity. Qed.
(** a server whose configuration does not give listen_addresses and port explicitly cannot be waited for *)
Theorem C70_default_refuted : ~ (forall conf w, spawned (w_hist w) = true -> child_alive w -> snd (wait_until_started AU no_dv (world_env conf) false 300 10000 50 w) <> Raise XType).
Proof.
  intros H. apply (H (str "port = 6543" ++ [10]) {| w_proc := Some {| p_pid := 77; p_rc := None |}; w_hist := [ESpawn [] (inl 77)] |}); [reflexivity|exists {| p_pid := 77; p_rc := None |}; split; reflexivity|]. vm_compute. reflexivity.
Qed.
(** a with block that cannot be entered leaves the server it started running: nothing stops it *)
Theorem C70_enter_refuted : ~ (forall U dv E dir pm pg a fuel T d w w' x, enter U dv E dir pm pg a fuel T d w = (w', Raise x) -> spawned (w_hist w) = false -> spawned (w_hist w') = true -> signals (w_hist w') <> []).
Proof.
  intros H. destruct (enter AU no_dv demo (str "/d") None (Some (str "/bin/postgres")) false 300 0 50 w0) as [w' r] eqn:Q.
  assert (X : r = Raise (XServer starting) /\ spawned (w_hist w') = true /\ signals (w_hist w') = []) by (vm_compute in Q; injection Q as <- <-; repeat split; reflexivity). destruct X as (-> & X1 & X2).
  exact (H AU no_dv demo _ _ _ _ _ _ _ w0 w' _ Q eq_refl X1 X2).
Qed.
(** a server that was started by someone else and goes down at the wrong moment makes wait_until_stopped() raise
    TypeError, or the OSError of a process that does not exist, though it is down *)
Definition fading : env :=
  {| e_pid := fun h => if (length h <=? 2)%nat then PLine (str "5" ++ [10]) else PErr 2; e_poll := e_poll demo; e_kill := fun _ _ _ => None; e_spawn := e_spawn demo; e_time := clock; e_conf := e_conf demo;
     e_connect := e_connect demo; e_walk := fun _ => []; e_unlink := e_unlink demo; e_rmdir := e_rmdir demo; e_temp := e_temp demo; e_write := e_write demo; e_init := e_init demo |}.
Theorem C71_race_refuted : ~ (forall U dv E fuel T d w r, snd (wait_until_stopped U dv E fuel T d w) = r -> r = Ret tt \/ r = Raise XTimeout \/ r = Raise XFuel).
Proof. intros H. destruct (H AU no_dv fading 300%nat 10000 50 w0 (Raise XType)) as [X | [X | X]]; [vm_compute; reflexivity| | |]; discriminate. Qed.
(** a symbolic link to a directory (as for a tablespace) is not removed *)
Theorem C71_link_refuted : ~ (forall es f, (forall q k, In (q, k) f <-> In (q, k) (entries (str "/d") (NDir es))) -> fs_run (removals (str "/d") (walk_node (str "/d") (NDir es))) f <> None).
Proof. intros H. apply (H [(str "16385", NLink true)] (entries (str "/d") (NDir [(str "16385", NLink true)]))); [tauto|]. vm_compute. reflexivity. Qed.
(** a blank after the comma, and localhost is not recognized *)
Theorem C73_blank_refuted : ~ (forall a, py_in (str "localhost") a = true -> choose_host AU a = str "localhost").
Proof. intros H. specialize (H (str "10.0.0.1, localhost") eq_refl). vm_compute in H. discriminate. Qed.
Print Assumptions C69_signal_refuted.
Print Assumptions C70_settings_refuted.
Print Assumptions C70_default_refuted.
Print Assumptions C70_enter_refuted.
Print Assumptions C71_race_refuted.
Print Assumptions C71_link_refuted.
Print Assumptions C73_blank_refuted.
