(** DbapiProps.v: C35, DB-API cursor fetches *)
From Verif Require Import Base BaseProof PyList DbapiModel DbapiSpec DbapiProof.

(** Whatever the chunks the results come in (empty ones too), every sequence of calls on a cursor gives the same
    answers as the DB-API reference on plain lists. *)
Theorem C35_fetches {A} (ops : list (cop A)) : Forall good_op ops -> Forall good_exec ops ->
  snd (crun cursor_init ops) = snd (srun scursor_init ops).
Proof.
  intros G E. apply run_rel; auto. split; [reflexivity|]. split; [cbn; lia|]. cbn. auto.
Qed.
Print Assumptions C35_fetches.

(** Even if the server fails at any point(s): what the fetches after an execute deliver is an initial segment of the rows,
    and what follows is still there. *)
Theorem C35_segments {A} (before : list (cop A)) src ops c : Forall good_op before -> c = fst (crun cursor_init before) -> c_portals c <> None ->
  Forall is_fetch ops -> Forall good_op ops ->
  exists rest, rows_of src = delivered (snd (crun (fst (cstep c (Execute src))) ops)) ++ rest /\
    snd (cstep (fst (crun (fst (cstep c (Execute src))) ops)) (Execute [])) = RDone.
Proof.
  intros G0 EC NC F G. destruct (c_portals c) as [ps|] eqn:C; [|contradiction].
  assert (AS : 0 <= c_arraysize c).
  { subst c. clear -G0. assert (X : forall ops (c : cursor A), 0 <= c_arraysize c -> Forall good_op ops -> 0 <= c_arraysize (fst (crun c ops))).
    { clear. induction ops as [|o ops IH]; intros c H G; [exact H|]. inversion G; subst. cbn [crun].
      assert (H1 : 0 <= c_arraysize (fst (cstep c o))).
      { destruct o; cbn [cstep]; unfold with_portal; try (destruct (c_portals c) as [[|p ps]|]; cbn [fst]; try exact H;
          try (destruct (portal_next p) as [p' [a|[]]]; exact H); try (destruct (portal_read _ p) as [p' []]; exact H); try (destruct (portal_readall p) as [p' []]; exact H)).
        all: exact H2. }
      destruct (cstep c o) as [c1 x]. specialize (IH c1 H1 H3). destruct (crun c1 ops). exact IH. }
    apply X; [cbn; lia|exact G0]. }
  cbn [cstep]. rewrite C. cbn [fst].
  destruct (fetches_keep ops {| c_portals := Some (portal_init src :: ps); c_arraysize := c_arraysize c |} (portal_init src) ps) as (p' & C' & E); auto.
  exists (left_of p'). split; [exact E|]. rewrite C'. reflexivity.
Qed.
Print Assumptions C35_segments.

(** fetchall leaves nothing *)
Theorem C35_fetchall_exhausts {A} (c : cursor A) l : snd (cstep c FetchAll) = RRows l ->
  snd (cstep (fst (cstep c FetchAll)) FetchAll) = RRows [] /\ snd (cstep (fst (cstep c FetchAll)) FetchOne) = RNoRow.
Proof.
  unfold cstep, with_portal, portal_readall. destruct (c_portals c) as [[|p ps]|]; try discriminate.
  assert (X : forall src buf p' (l : list A), readall_go buf src = (p', Ok l) -> p' = {| p_buf := []; p_pos := O; p_src := [] |}).
  { clear. induction src as [|[x|e] src IH]; intros buf p' l H; cbn [readall_go] in H; [injection H as <- _; reflexivity|eauto|discriminate]. }
  destruct (readall_go (skipn (p_pos p) (p_buf p)) (p_src p)) as [p' [l'|e]] eqn:R; [|discriminate]. intros _. apply X in R. subst p'. cbn. auto.
Qed.
Print Assumptions C35_fetchall_exhausts.

(** Not covered by C35_fetches: negative sizes.  After one fetchone, fetchmany(-1) makes the cursor give the first row again. *)
Theorem C35_negative_refuted : exists ops : list (cop Z), Forall good_exec ops /\
  delivered (snd (crun cursor_init ops)) = [1; 1; 2] /\ (exists s, In (Execute s) ops /\ rows_of s = [1; 2]).
Proof.
  exists [Execute [Ok [1; 2]]; FetchOne; FetchMany (Some (-1)); FetchAll]. split; [repeat constructor|]. split; [reflexivity|]. exists [Ok [1; 2]]. split; [now left|reflexivity].
Qed.
Print Assumptions C35_negative_refuted.

Definition ex_ops : list (cop Z) :=
  [Execute [Ok [1; 2]; Ok []; Ok [3; 4; 5]; Ok []; Ok [6]]; FetchOne; FetchMany (Some 3); Execute [Ok []; Ok [10]]; FetchOne; FetchOne; SetArraysize 0; NextSet; FetchMany None; FetchAll; Next; NextSet; FetchOne; Close; FetchOne].
Example C35_example : Forall good_op ex_ops /\ Forall good_exec ex_ops /\
  snd (crun cursor_init ex_ops) = [RDone; RRow 1; RRows [2; 3; 4]; RDone; RRow 10; RNoRow; RDone; RCount (Some 1); RRows [5]; RRows [6]; RExn StopIteration; RCount None; RExn (OtherError 2); RDone; RExn (OtherError 1)].
Proof. split; [repeat (constructor; [cbn; auto; lia|]); constructor|]. split; [repeat (constructor; [cbn; repeat (constructor; [reflexivity|]); auto|]); constructor|]. reflexivity. Qed.
Example C35_example_error : delivered (snd (crun cursor_init [Execute [Ok [1; 2]; Err (OtherError 9); Ok [3]]; FetchOne; FetchMany (Some 5); FetchMany (Some 5)])) = [1; 2; 3].
Proof. reflexivity. Qed.
