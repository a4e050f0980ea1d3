(** CluProof.v: running(), the signals, and the start of a cluster *)
From Verif Require Import Base PyStr PyInt PgcModel CluModel CluSpec.

Lemma bindM_inv {A B} (m : M A) (k : A -> M B) w w2 r : bindM m k w = (w2, r) ->
  (exists w1 a, m w = (w1, Ret a) /\ k a w1 = (w2, r)) \/ (exists x, m w = (w2, Raise x) /\ r = Raise x).
Proof. unfold bindM. destruct (m w) as [w1 [a|x]]; intros H; [left|right]; [eauto|]. injection H as <- <-. eauto. Qed.

Definition add (e : list event) (w : world) : world := {| w_proc := w_proc w; w_hist := w_hist w ++ e |}.
Lemma add_hist e w : w_hist (add e w) = w_hist w ++ e. Proof. reflexivity. Qed.
Lemma add_add e f w : add f (add e w) = add (e ++ f) w.
Proof. unfold add. cbn. now rewrite app_assoc. Qed.

Section CluP.
Variable U : unicode. Variable dv : decimals. Variable E : env.
Variable dir : text. Variable postmaster postgres : option text.

Lemma pid_file w w' r : get_pid_from_file U dv E w = (w', r) ->
  exists a, a = e_pid E (w_hist w) /\ w' = add [EPid a] w /\
  match a with
  | PLine l => match py_int U dv 10 l with Ok n => r = Ret (Some n) | Err _ => r = Raise XValue end
  | PErr _ => r = Ret None
  end.
Proof.
  unfold get_pid_from_file, bindM, ask. cbv zeta. intros H. exists (e_pid E (w_hist w)). split; [reflexivity|].
  destruct (e_pid E (w_hist w)) as [l|z]; cbn [fst snd] in H.
  - destruct (py_int U dv 10 l); cbv [ret raise] in H; injection H as <- <-; split; reflexivity.
  - injection H as <- <-; split; reflexivity.
Qed.

Lemma kill_eq p s w : kill_ E p s w = (add [EKill p s (e_kill E (w_hist w) p s)] w, Ret (e_kill E (w_hist w) p s)).
Proof. reflexivity. Qed.

(** looking in the file *)
Definition fileview (t : list event) (r : out bool) : Prop :=
  match r with
  | Ret true => exists l n, t = [EPid (PLine l); EKill n 0 None] /\ py_int U dv 10 l = Ok n
  | Ret false => (exists err, t = [EPid (PErr err)]) \/ (exists l n, t = [EPid (PLine l); EKill n 0 (Some 3)] /\ py_int U dv 10 l = Ok n)
  | Raise XValue => exists l e, t = [EPid (PLine l)] /\ py_int U dv 10 l = Err e
  | Raise (XOS x) => exists l n, t = [EPid (PLine l); EKill n 0 (Some x)] /\ py_int U dv 10 l = Ok n /\ x <> 3
  | _ => False
  end.
Lemma running_file_spec w w' r : running_file U dv E w = (w', r) -> exists t, w' = add t w /\ fileview t r.
Proof.
  unfold running_file. intros H. apply bindM_inv in H as [(w1 & a & H1 & H2) | (x & H1 & ->)].
  - apply pid_file in H1 as (f & Ef & -> & Q). destruct f as [l|err].
    + destruct (py_int U dv 10 l) as [n|e] eqn:P; [|discriminate]. injection Q as ->. unfold bindM in H2. rewrite kill_eq in H2. destruct (e_kill _ _ _ _) as [err|]; rewrite add_add in H2; cbn [app] in H2.
      * unfold ESRCH in H2. destruct (Z.eqb_spec err 3) as [E3|N]; [subst err|]; injection H2 as <- <-; eexists; (split; [reflexivity|]); cbn; eauto 8.
      * injection H2 as <- <-; eexists; (split; [reflexivity|]); cbn; eauto 8.
    + injection Q as ->. injection H2 as <- <-. eexists; (split; [reflexivity|]); cbn; eauto 8.
  - apply pid_file in H1 as (f & Ef & -> & Q). destruct f as [l|err]; [|discriminate]. destruct (py_int U dv 10 l) as [n|e] eqn:P; [discriminate|]. injection Q as ->. eexists; (split; [reflexivity|]); cbn; eauto 8.
Qed.

(** running(), exactly: its events, what it answers, and the child afterwards *)
Definition seen_view (d d' : option proc) (t : list event) (r : out bool) : Prop :=
  match d with
  | None => d' = None /\ fileview t r
  | Some p =>
      match p_rc p with
      | None =>
          (t = [EPoll None] /\ r = Ret true /\ d' = d)
          \/ (exists rc u, t = EPoll (Some rc) :: u /\
                ((exists err, u = [EPid (PErr err)] /\ r = Ret false /\ d' = Some {| p_pid := p_pid p; p_rc := Some rc |})
                 \/ (exists l e, u = [EPid (PLine l)] /\ py_int U dv 10 l = Err e /\ r = Raise XValue /\ d' = Some {| p_pid := p_pid p; p_rc := Some rc |})
                 \/ (exists l n v, u = EPid (PLine l) :: v /\ py_int U dv 10 l = Ok n /\ d' = None /\ fileview v r)))
      | Some rc =>
          (exists err, t = [EPid (PErr err)] /\ r = Ret false /\ d' = d)
          \/ (exists l e, t = [EPid (PLine l)] /\ py_int U dv 10 l = Err e /\ r = Raise XValue /\ d' = d)
          \/ (exists l n v, t = EPid (PLine l) :: v /\ py_int U dv 10 l = Ok n /\ d' = None /\ fileview v r)
      end
  end.
Lemma bind_ret {A B} (a : A) (k : A -> M B) w : bindM (ret a) k w = k a w. Proof. reflexivity. Qed.
Lemma running_dead w w' r :
  bindM (get_pid_from_file U dv E) (fun f => match f with Some _ => bindM (set_proc None) (fun _ => running_file U dv E) | None => ret false end) w = (w', r) ->
  exists t, w_hist w' = w_hist w ++ t /\
   ((exists err, t = [EPid (PErr err)] /\ r = Ret false /\ w_proc w' = w_proc w)
    \/ (exists l e, t = [EPid (PLine l)] /\ py_int U dv 10 l = Err e /\ r = Raise XValue /\ w_proc w' = w_proc w)
    \/ (exists l n v, t = EPid (PLine l) :: v /\ py_int U dv 10 l = Ok n /\ w_proc w' = None /\ fileview v r)).
Proof.
  intros H. apply bindM_inv in H as [(w1 & a & H1 & H2) | (x & H1 & ->)].
  - apply pid_file in H1 as (f & Ef & -> & Q). destruct f as [l|err].
    + destruct (py_int U dv 10 l) as [n|e] eqn:P; [|discriminate]. injection Q as ->. unfold bindM, set_proc in H2. apply running_file_spec in H2 as (t & -> & V). cbn [add w_hist w_proc]. rewrite <- app_assoc. eexists. split; [reflexivity|]. right. right. exists l, n, t. repeat split; assumption.
    + injection Q as ->. injection H2 as <- <-. eexists; (split; [reflexivity|]). left. eauto.
  - apply pid_file in H1 as (f & Ef & -> & Q). destruct f as [l|err]; [|discriminate]. destruct (py_int U dv 10 l) as [n|e] eqn:P; [discriminate|]. injection Q as ->. eexists; (split; [reflexivity|]). right. left. eauto 8.
Qed.
Lemma running_spec w w' r : running U dv E w = (w', r) -> exists t, w_hist w' = w_hist w ++ t /\ seen_view (w_proc w) (w_proc w') t r.
Proof.
  unfold running, bindM at 1, get_proc. intros H. unfold seen_view. destruct (w_proc w) as [p|] eqn:D.
  - unfold poll in H. destruct (p_rc p) as [rc|] eqn:R.
    + rewrite bind_ret in H. apply running_dead in H as (t & Et & V). rewrite D in V. exists t. split; assumption.
    + unfold bindM at 1, ask in H. unfold bindM at 1 in H. cbv zeta in H. destruct (e_poll E (w_hist w)) as [rc|].
      * unfold bindM at 1, set_proc at 1 in H. cbv beta iota delta [ret] in H. apply running_dead in H as (t & Et & V). cbn [w_hist w_proc] in *. rewrite <- app_assoc in Et. eexists. split; [exact Et|]. right. exists rc, t. split; [reflexivity|]. assumption.
      * injection H as <- <-. eexists. split; [reflexivity|]. left. cbn [w_proc]. auto.
  - apply running_file_spec in H as (t & -> & V). exists t. split; [reflexivity|]. split; [exact D|assumption].
Qed.

Lemma fileview_looks t r : fileview t r -> Forall looks t.
Proof.
  destruct r as [[]|[]]; cbn; intros H; try contradiction.
  - destruct H as (l & n & -> & _). repeat constructor.
  - destruct H as [(e & ->) | (l & n & -> & _)]; repeat constructor.
  - destruct H as (l & n & -> & _). repeat constructor.
  - destruct H as (l & n & -> & _). repeat constructor.
Qed.
Lemma seen_looks d d' t r : seen_view d d' t r -> Forall looks t.
Proof.
  unfold seen_view. destruct d as [p|]; [|intros (_ & H); now apply fileview_looks in H].
  destruct (p_rc p).
  - intros [(e & -> & _) | [(l & e & -> & _) | (l & n & v & -> & _ & _ & V)]]; repeat constructor. now apply fileview_looks in V.
  - intros [(-> & _) | (rc & u & -> & [(e & -> & _) | [(l & e & -> & _) | (l & n & v & -> & _ & _ & V)]])]; repeat constructor. now apply fileview_looks in V.
Qed.
Lemma fileview_up t : fileview t (Ret true) -> up_seen U dv t.
Proof. intros (l & n & -> & P). right. exists [], l, n. auto. Qed.
Lemma fileview_down t : fileview t (Ret false) -> down_seen U dv t.
Proof. intros [(e & ->) | (l & n & -> & P)]; [left; exists [], e; reflexivity|]. right. exists [], l, n. auto. Qed.
Lemma up_app a t : up_seen U dv t -> up_seen U dv (a ++ t).
Proof. intros [(x & ->) | (x & l & n & -> & P)]; rewrite app_assoc; [left; eauto|right]. exists (a ++ x), l, n. auto. Qed.
Lemma down_app a t : down_seen U dv t -> down_seen U dv (a ++ t).
Proof. intros [(x & e & ->) | (x & l & n & -> & P)]; rewrite app_assoc; [left; eauto|right]. exists (a ++ x), l, n. auto. Qed.
Lemma seen_up d d' t : seen_view d d' t (Ret true) -> up_seen U dv t.
Proof.
  unfold seen_view. destruct d as [p|]; [|intros (_ & H); now apply fileview_up].
  destruct (p_rc p).
  - intros [(e & _ & X & _) | [(l & e & _ & _ & X & _) | (l & n & v & -> & _ & _ & V)]]; try discriminate. apply (up_app [_]). now apply fileview_up.
  - intros [(-> & _) | (rc & u & -> & [(e & _ & X & _) | [(l & e & _ & _ & X & _) | (l & n & v & -> & _ & _ & V)]])]; try discriminate.
    + left. exists []. reflexivity.
    + apply (up_app [_; _]). now apply fileview_up.
Qed.
Lemma seen_down d d' t : seen_view d d' t (Ret false) -> down_seen U dv t /\ (forall p, d' = Some p -> p_rc p <> None).
Proof.
  unfold seen_view. destruct d as [p|]; [|intros (-> & H); split; [now apply fileview_down|discriminate]].
  destruct (p_rc p) eqn:R.
  - intros [(e & -> & _ & ->) | [(l & e & _ & _ & X & _) | (l & n & v & -> & _ & -> & V)]]; try discriminate.
    + split; [left; exists [], e; reflexivity|]. intros q Q. injection Q as <-. congruence.
    + split; [|discriminate]. apply (down_app [_]). now apply fileview_down.
  - intros [(_ & X & _) | (rc & u & -> & [(e & -> & _ & ->) | [(l & e & _ & _ & X & _) | (l & n & v & -> & _ & -> & V)]])]; try discriminate.
    + split; [left; exists [EPoll (Some rc)], e; reflexivity|]. intros q Q. injection Q as <-. discriminate.
    + split; [|discriminate]. apply (down_app [_; _]). now apply fileview_down.
Qed.

(** the pid property and the signals *)
Lemma signal_spec sig w w' r : signal U dv E sig w = (w', r) ->
  exists a t, a = e_pid E (w_hist w) /\ w_proc w' = w_proc w /\ w_hist w' = w_hist w ++ EPid a :: t /\
  ((exists l e, a = PLine l /\ py_int U dv 10 l = Err e /\ t = [] /\ r = Raise XValue)
   \/ (target U dv a (w_proc w) None /\ t = [] /\ r = Ret tt)
   \/ (exists n, target U dv a (w_proc w) (Some n) /\
       ((t = [EKill n sig None] /\ r = Ret tt) \/ (t = [EKill n sig (Some 3)] /\ r = Ret tt)
        \/ (exists err, err <> 3 /\ t = [EKill n sig (Some err)] /\ r = Raise (XOS err))))).
Proof.
  unfold signal. intros H. apply bindM_inv in H as [(w1 & a & H1 & H2) | (x & H1 & ->)].
  - unfold pid in H1. apply bindM_inv in H1 as [(w0 & b & H0 & H1) | (x & _ & X)]; [|discriminate].
    apply pid_file in H0 as (f & Ef & -> & Q). exists f.
    assert (G : w1 = add [EPid f] w /\ target U dv f (w_proc w) a).
    { destruct f as [l|err]; cbn [target].
      - destruct (py_int U dv 10 l) as [n|e] eqn:P; [|discriminate]. injection Q as ->. injection H1 as <- <-. eauto.
      - injection Q as ->. unfold bindM, get_proc in H1. injection H1 as <- <-. auto. }
    destruct G as (-> & T). destruct a as [n|].
    + unfold bindM in H2. rewrite kill_eq in H2. unfold ESRCH in H2. rewrite add_add in H2. destruct (e_kill _ _ _ _) as [err|].
      * destruct (Z.eqb_spec err 3) as [E3|N]; [subst err|]; injection H2 as <- <-; eexists; (repeat split; [assumption|]); right; right; exists n; split; eauto 7.
      * injection H2 as <- <-; eexists; (repeat split; [assumption|]); right; right; exists n; split; eauto 7.
    + injection H2 as <- <-. exists []. repeat split; auto.
  - unfold pid in H1. apply bindM_inv in H1 as [(w0 & b & H0 & H1) | (y & H0 & X)].
    + destruct b; [discriminate H1|]. unfold bindM, get_proc in H1. destruct (w_proc w0); discriminate H1.
    + injection X as <-. apply pid_file in H0 as (f & Ef & -> & Q). exists f, []. repeat split; [assumption|].
      destruct f as [l|err]; [|discriminate]. destruct (py_int U dv 10 l) as [n|e] eqn:P; [discriminate|]. injection Q as ->. left. eauto 8.
Qed.

(** start() *)
Lemma start_spec settings w w' r : start U dv E dir postmaster postgres settings w = (w', r) ->
  exists t0 d t, w_hist w' = w_hist w ++ t0 ++ t /\
  ((exists x, seen_view (w_proc w) d t0 (Raise x) /\ r = Raise x /\ t = [] /\ w_proc w' = d)
   \/ (seen_view (w_proc w) d t0 (Ret true) /\ r = Ret tt /\ t = [] /\ w_proc w' = d)
   \/ (seen_view (w_proc w) d t0 (Ret false) /\
        ((settings <> [] /\ r = Raise XAttr /\ t = [] /\ w_proc w' = d)
         \/ (settings = [] /\ daemon_path postmaster postgres = None /\ r = Raise XType /\ t = [] /\ w_proc w' = d)
         \/ (exists path, settings = [] /\ daemon_path postmaster postgres = Some path /\
              let cmd := [path; str "-D"; dir] in
              ((exists n, t = [ESpawn cmd (inl n)] /\ r = Ret tt /\ w_proc w' = Some {| p_pid := n; p_rc := None |})
               \/ (exists err, t = [ESpawn cmd (inr err)] /\ r = Raise (XOS err) /\ w_proc w' = d)))))).
Proof.
  unfold start. intros H. apply bindM_inv in H as [(w1 & b & H1 & H2) | (x & H1 & ->)]; apply running_spec in H1 as (t0 & Eh & V).
  - exists t0, (w_proc w1). destruct b.
    + injection H2 as <- <-. exists []. rewrite app_nil_r. split; [assumption|]. right. left. auto.
    + destruct settings as [|kv settings].
      * destruct (daemon_path postmaster postgres) as [path|].
        -- unfold bindM, ask in H2. cbv beta zeta in H2. destruct (e_spawn _ _ _) as [n|err].
           ++ cbn in H2. injection H2 as <- <-. cbn [w_hist w_proc]. rewrite Eh, <- app_assoc. eexists. split; [reflexivity|]. right. right. split; [assumption|]. right. right. exists path. repeat split. left. eauto.
           ++ injection H2 as <- <-. cbn [w_hist w_proc]. rewrite Eh, <- app_assoc. eexists. split; [reflexivity|]. right. right. split; [assumption|]. right. right. exists path. repeat split. right. eauto.
        -- injection H2 as <- <-. exists []. rewrite app_nil_r. split; [assumption|]. right. right. split; [assumption|]. right. left. auto.
      * injection H2 as <- <-. exists []. rewrite app_nil_r. split; [assumption|]. right. right. split; [assumption|]. left. repeat split; discriminate.
  - exists t0, (w_proc w'), []. rewrite app_nil_r. split; [assumption|]. left. eauto.
Qed.
End CluP.
