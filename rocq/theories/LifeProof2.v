(** LifeProof2.v: the invariant of C57 *)
From Coq Require Import Lia.
From Verif Require Import PyStr PyDict PyDictProof BaseProof LifeModel LifeSpec LifeProof.

Notation table := (list (class * option text * option nat)).
Definition qof (L : table) (k : nat) : option text :=
  match nth_error L k with
  | Some (CStatement, q, _) => q
  | Some (_, _, Some j) => match nth_error L j with Some (_, q, _) => q | None => None end
  | _ => None
  end.
Definition ownq (L : table) (k : nat) (q : query) : Prop := match qof L k with Some t => q = QUser t | None => exists t, q = QUser t end.
Lemma ownq_user L k q : ownq L k q -> exists t, q = QUser t.
Proof. unfold ownq. destruct (qof L k) as [t|]; [exists t; auto|auto]. Qed.
Definition cursor_class (c : class) : Prop := c = CInside \/ c = CDeclared.
Record HInv (L : table) (h : list (nat * obj)) (rs rc : list (text * nat)) : Prop := {
  h_L : forall k c q j, nth_error L k = Some (c, q, Some j) -> (j < length L)%nat;
  h_made : forall k o, hget k h = Some o -> nth_error L k = Some (ob_class o, ob_query o, ob_of o);
  h_pos : forall k o, hget k h = Some o -> 0 <= ob_addr o;
  h_addr : forall k1 o1 k2 o2, hget k1 h = Some o1 -> hget k2 h = Some o2 -> ob_addr o1 = ob_addr o2 -> k1 = k2;
  h_form : forall k o, hget k h = Some o -> match ob_class o with
    | CStatement => ob_name o = ID (ob_addr o) \/ user_name (ob_name o) | CFetchAll => ob_name o = []
    | CInside | CDeclared => ob_name o = ID (ob_addr o) | CFromId => user_name (ob_name o) end;
  h_sname : forall k1 o1 k2 o2, hget k1 h = Some o1 -> hget k2 h = Some o2 -> ob_class o1 = CStatement -> ob_class o2 = CStatement -> ob_name o1 = ob_name o2 -> k1 = k2;
  h_of : forall k o, hget k h = Some o -> match ob_class o with
    | CStatement | CFromId => ob_of o = None
    | _ => exists j t, ob_of o = Some j /\ hget j h = Some t /\ ob_class t = CStatement /\ ob_begun t = true /\ ob_closed t <> None /\ (ob_class o = CDeclared -> ob_query t <> None) end;
  h_closed : forall k o, hget k h = Some o -> ob_class o = CStatement -> ob_closed o <> None -> ob_begun o = true;
  h_cclosed : forall k o, hget k h = Some o -> ob_class o <> CStatement -> ob_closed o <> None;
  h_regs : forall n k, dget n rs = Some k -> exists o, hget k h = Some o /\ ob_class o = CStatement /\ ob_name o = n /\ n = ID (ob_addr o);
  h_regs' : forall k o, hget k h = Some o -> ob_class o = CStatement -> ob_name o = ID (ob_addr o) -> dget (ob_name o) rs = Some k \/ ob_closed o = Some true;
  h_regc : forall n k, dget n rc = Some k -> exists o, hget k h = Some o /\ cursor_class (ob_class o) /\ ob_name o = n;
  h_regc' : forall k o, hget k h = Some o -> cursor_class (ob_class o) -> dget (ob_name o) rc = Some k \/ ob_closed o = Some true }.
Lemma stmt_name_ne L h rs rc : HInv L h rs rc -> forall k o, hget k h = Some o -> ob_class o = CStatement -> ob_name o <> [].
Proof. intros H k o G C. pose proof (h_form _ _ _ _ H k o G) as F. rewrite C in F. destruct F as [->|[F _]]; [apply ID_ne|exact F]. Qed.
Lemma cur_name_ne L h rs rc : HInv L h rs rc -> forall k o, hget k h = Some o -> cursor_class (ob_class o) -> ob_name o = ID (ob_addr o).
Proof. intros H k o G C. pose proof (h_form _ _ _ _ H k o G) as F. destruct C as [C|C]; rewrite C in F; exact F. Qed.
Lemma cur_same L h rs rc : HInv L h rs rc -> forall k1 o1 k2 o2, hget k1 h = Some o1 -> hget k2 h = Some o2 -> cursor_class (ob_class o1) -> cursor_class (ob_class o2) -> ob_name o1 = ob_name o2 -> k1 = k2.
Proof.
  intros H k1 o1 k2 o2 G1 G2 C1 C2 E. rewrite (cur_name_ne _ _ _ _ H _ _ G1 C1), (cur_name_ne _ _ _ _ H _ _ G2 C2) in E.
  apply (h_addr _ _ _ _ H _ _ _ _ G1 G2). apply ID_inj; [exact (h_pos _ _ _ _ H _ _ G1)|exact (h_pos _ _ _ _ H _ _ G2)|exact E].
Qed.
Definition tail (q : list msg) : Prop := q = [MDescribe; MSync] \/ q = [MSync] \/ q = [].
Definition trashy (m : msg) : Prop := match m with MCloseS n => n <> [] | MCloseP _ | MSync => True | _ => False end.
Section V.
Context (L : table) (h : list (nat * obj)) (rs rc : list (text * nat)) (PS PC : text -> Prop) (x : option instr) (v : server).
Definition pstate (q : option text) (n : text) (i : instr) : Prop :=
  match q with
  | None => tail (in_msgs i)
  | Some q =>
      (in_msgs i = [MCloseS n; MParse n (QUser q); MDescribe; MSync] /\ sv_skip v = false /\ in_err i = false) \/
      (in_msgs i = [MParse n (QUser q); MDescribe; MSync] /\ dget n (sv_stmts v) = None /\ sv_skip v = false /\ in_err i = false) \/
      (tail (in_msgs i) /\ (forall qq, dget n (sv_stmts v) = Some qq -> qq = QUser q) /\ (in_err i = false -> dget n (sv_stmts v) = Some (QUser q)))
  end.
Record xprep (i : instr) (k : nat) (n : text) (q : option text) : Prop := {
  xp_len : (k < length L)%nat;
  xp_liv : forall o, hget k h = Some o -> ob_class o = CStatement /\ ob_begun o = true /\ ob_closed o = None /\ ob_name o = n /\ ob_query o = q;
  xp_ne : n <> [];
  xp_others : forall k' o, hget k' h = Some o -> ob_class o = CStatement -> ob_name o = n -> k' = k \/ ob_begun o = false;
  xp_leak : made_name n -> dget n rs = Some k \/ PS n;
  xp_state : pstate q n i }.
Record xuse (i : instr) (k : nat) (n cn : text) (cr : bool) : Prop := {
  xu_len : (k < length L)%nat;
  xu_liv : forall o, hget k h = Some o -> ob_begun o = true /\ (cursor_class (ob_class o) -> ob_name o = cn /\ exists j t, ob_of o = Some j /\ hget j h = Some t /\ ob_name t = n);
  xu_typed : (in_msgs i = [] /\ sv_skip v = false) \/ exists u p, typed n cn cr (ownq L k) u p (in_msgs i) /\ fits n cn cr (ownq L k) u p v;
  xu_others : cn <> [] -> forall k' o, hget k' h = Some o -> cursor_class (ob_class o) -> ob_name o = cn -> k' = k \/ ob_begun o = false;
  xu_leak : cr = true -> cn <> [] -> made_name cn -> (exists o, dget cn rc = Some k /\ hget k h = Some o) \/ PC cn }.
Record VInv : Prop := {
  v_skip : sv_skip v = true -> exists i, x = Some i /\ in_owner i <> None /\ in_err i = true /\ in_msgs i <> [];
  v_trash : forall t, x = Some t -> in_owner t = None -> Forall trashy (in_msgs t);
  v_prep : forall i k, x = Some i -> in_owner i = Some k -> in_prepare i = true -> exists n q, xprep i k n q;
  v_use : forall i k, x = Some i -> in_owner i = Some k -> in_prepare i = false -> exists n cn cr, xuse i k n cn cr;
  v_user : forall m q, m <> [] -> dget m (sv_stmts v) = Some q -> exists t, q = QUser t;
  v_pkeys : NoDup (dkeys (sv_portals v));
  v_Ks : forall n k o, PS n -> hget k h = Some o -> ob_class o = CStatement -> ob_name o = n -> ob_closed o = Some true \/ ob_begun o = false;
  v_Kc : forall n k o, PC n -> hget k h = Some o -> cursor_class (ob_class o) -> ob_name o = n -> ob_closed o = Some true \/ ob_begun o = false;
  v_J : forall k o q, hget k h = Some o -> ob_class o = CStatement -> ob_begun o = true -> ob_query o = Some q ->
    (forall qq, dget (ob_name o) (sv_stmts v) = Some qq -> qq = QUser q) \/
    (exists i r, x = Some i /\ in_owner i = Some k /\ in_prepare i = true /\ in_msgs i = MCloseS (ob_name o) :: r);
  v_J2 : forall k o q, hget k h = Some o -> ob_class o = CStatement -> ob_closed o = Some false -> ob_query o = Some q -> dget (ob_name o) (sv_stmts v) = Some (QUser q);
  v_Jc : forall k o po, hget k h = Some o -> cursor_class (ob_class o) -> ob_begun o = true -> dget (ob_name o) (sv_portals v) = Some po ->
    ownq L k (po_query po) /\ (po_from po = [] \/ exists j t, ob_of o = Some j /\ hget j h = Some t /\ ob_name t = po_from po);
  v_Ls : forall n q, dget n (sv_stmts v) = Some q -> made_name n -> (exists k, dget n rs = Some k) \/ PS n;
  v_Lc : forall n po, dget n (sv_portals v) = Some po -> made_name n -> (exists k o, dget n rc = Some k /\ hget k h = Some o /\ ob_begun o = true) \/ PC n;
  v_ran : forall ok t, In (ok, t) (ran v) -> exists k, ok = Some k /\ (k < length L)%nat /\ ownq L k (QUser t);
  v_ps : forall n, PS n -> n <> [] }.
End V.
Definition trash_msgs (s : st) : list msg := match xact s with Some i => match in_owner i with None => in_msgs i | Some _ => [] end | None => [] end.
Definition psn (s : st) (n : text) : Prop := In n (gar_s s) \/ In (MCloseS n) (trash_msgs s).
Definition pcn (s : st) (n : text) : Prop := In n (gar_c s) \/ In (MCloseP n) (trash_msgs s).
Definition rest_ok (s : st) (x : instr) (gs gc : list text) : Prop := forall k o, in_owner x = Some k -> living s k o ->
  (ob_class o = CStatement -> ~ In (ob_name o) gs) /\ (cursor_class (ob_class o) -> ~ In (ob_name o) gc).
Definition at_ok (s : st) : Prop :=
  match at_ s with
  | PCursors x xm i => xact s = None /\ (i <= length (gar_c s))%nat /\ xm = map MCloseP (firstn i (gar_c s))
  | PStmts x xm i j => xact s = None /\ (i <= length (gar_c s))%nat /\ (j <= length (gar_s s))%nat /\ xm = map MCloseP (firstn i (gar_c s)) ++ map MCloseS (firstn j (gar_s s)) /\ rest_ok s x [] (skipn i (gar_c s))
  | PDelC x i j => (i <= length (gar_c s))%nat /\ (j <= length (gar_s s))%nat /\ (exists t, xact s = Some t /\ in_owner t = None /\ in_msgs t = map MCloseP (firstn i (gar_c s)) ++ map MCloseS (firstn j (gar_s s)) ++ [MSync]) /\
      rest_ok s x (skipn j (gar_s s)) (skipn i (gar_c s))
  | PDelS x j => (j <= length (gar_s s))%nat /\ (exists t cl, xact s = Some t /\ in_owner t = None /\ in_msgs t = map MCloseP cl ++ map MCloseS (firstn j (gar_s s)) ++ [MSync]) /\ rest_ok s x (skipn j (gar_s s)) (gar_c s)
  | PWait x => (forall t, xact s = Some t -> in_owner t = None) /\ rest_ok s x (gar_s s) (gar_c s)
  | PDead => True
  | Idle | PComplete _ => forall t, xact s = Some t -> in_owner t <> None
  end.
(** the request under way: of a living object, with its messages *)
Record req (s : st) (x : instr) (k : nat) (o : obj) (act : action) : Prop := {
  r_owner : in_owner x = Some k;
  r_liv : living s k o;
  r_asks : asks o act;
  r_err : in_err x = false;
  r_prep : in_prepare x = match act with APrepare => true | _ => false end;
  r_msgs : let so := match ob_of o with Some j => hget j (heap s) | None => None end in
    in_msgs x = messages act (ob_name o) (ob_query o) (match so with Some t => ob_name t | None => [] end) (match so with Some t => ob_query t | None => None end) }.
Record Inv (L : table) (s : st) : Prop := {
  i_fresh : fresh s = length L;
  i_h : HInv L (heap s) (reg_s s) (reg_c s);
  i_v : VInv L (heap s) (reg_s s) (reg_c s) (psn s) (pcn s) (xact s) (sv s);
  i_run : forall x, running (at_ s) = Some x -> exists k o act, req s x k o act;
  i_at : at_ok s }.
