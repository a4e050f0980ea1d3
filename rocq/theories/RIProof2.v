From Verif Require Import PyStr PyStrProof PyStrProof2 PyListProof BaseProof RIModel RISpec RIProof.

(** ** escaping *)
Definition class_ok (cls : Z -> bool) : Prop := cls 37 = true /\ forall c, cls c = true -> 0 <= c < 256.
Lemma esc_class_ok extra : forallb (fun c => (0 <=? c) && (c <? 256)) extra = true -> class_ok (esc_class extra).
Proof.
  intros F. split; [reflexivity|]. intros c H. unfold esc_class, unescaped in H. apply orb_true_iff in H as [H|H]; [lia|].
  apply memZ_In in H. rewrite forallb_forall in F. apply F in H. lia.
Qed.
Lemma hex_upper_val d : 0 <= d < 16 -> hex_digit_val (hex_upper d) = Some d.
Proof.
  intros H. unfold hex_upper. destruct (Z.ltb_spec d 10).
  - unfold hex_digit_val. replace ((48 <=? 48 + d) && (48 + d <=? 57)) with true by lia. f_equal. lia.
  - unfold hex_digit_val. replace ((48 <=? 55 + d) && (55 + d <=? 57)) with false by lia.
    replace ((65 <=? 55 + d) && (55 + d <=? 70)) with true by lia. f_equal. lia.
Qed.
Lemma unescape_pct c r : 0 <= c < 256 -> ri_unescape (pct_encode c ++ r) = c :: ri_unescape r.
Proof.
  intros H. unfold pct_encode. cbn [app]. cbn [ri_unescape]. change (37 =? 37) with true. cbv iota.
  assert (M := Z.mod_pos_bound c 16 ltac:(lia)). assert (D := Z.div_mod c 16 ltac:(lia)).
  unfold percent_escapes. rewrite !hex_upper_val by lia. f_equal. lia.
Qed.
Lemma unescape_escape cls x : class_ok cls -> ri_unescape (ri_escape cls x) = x.
Proof.
  intros [P R]. unfold ri_escape. induction x as [|c x IH]; [reflexivity|]. cbn [flat_map]. destruct (cls c) eqn:E.
  - rewrite unescape_pct by auto. now rewrite IH.
  - cbn [app ri_unescape]. replace (c =? 37) with false; [now rewrite IH|]. symmetry. apply Z.eqb_neq. intros ->. congruence.
Qed.
Definition hexchar (c : Z) : Prop := c = 37 \/ 48 <= c <= 57 \/ 65 <= c <= 70.
Lemma In_escape cls x c : class_ok cls -> In c (ri_escape cls x) -> hexchar c \/ (In c x /\ cls c = false).
Proof.
  intros [P R] H. unfold ri_escape in H. apply in_flat_map in H as (y & I & H). destruct (cls y) eqn:E.
  - left. apply R in E. assert (M := Z.mod_pos_bound y 16 ltac:(lia)). assert (D := Z.div_mod y 16 ltac:(lia)).
    unfold pct_encode, hex_upper, hexchar in *. cbn [In] in H.
    destruct H as [<-|[<-|[<-|[]]]]; [auto| |]; match goal with |- context [if ?b then _ else _] => destruct b eqn:?B end; lia.
  - cbn [In] in H. destruct H as [->|[]]. auto.
Qed.
Lemma escape_free cls x c : class_ok cls -> cls c = true -> ~ hexchar c -> ~ In c (ri_escape cls x).
Proof. intros K C N H. apply In_escape in H as [H|[_ H]]; auto. congruence. Qed.
Lemma escape_free' cls x c : class_ok cls -> ~ In c x -> ~ hexchar c -> ~ In c (ri_escape cls x).
Proof. intros K C N H. apply In_escape in H as [H|[H _]]; auto. Qed.
Lemma escape_id cls x : Forall (fun c => cls c = false) x -> ri_escape cls x = x.
Proof. induction 1 as [|c x H _ IH]; [reflexivity|]. unfold ri_escape in *. cbn [flat_map]. rewrite H, IH. reflexivity. Qed.
Lemma escape_nil cls x : ri_escape cls x = [] -> x = [].
Proof. destruct x as [|c x]; [reflexivity|]. unfold ri_escape. cbn [flat_map]. destruct (cls c); discriminate. Qed.
Lemma escape_app cls a b : ri_escape cls (a ++ b) = ri_escape cls a ++ ri_escape cls b.
Proof. unfold ri_escape. apply flat_map_app. Qed.

Lemma ok_re : class_ok escape_re. Proof. apply esc_class_ok. reflexivity. Qed.
Lemma ok_user : class_ok escape_user_re. Proof. apply esc_class_ok. reflexivity. Qed.
Lemma ok_password : class_ok escape_password_re. Proof. apply esc_class_ok. reflexivity. Qed.
Lemma ok_host : class_ok escape_host_re. Proof. apply esc_class_ok. reflexivity. Qed.
Lemma ok_port : class_ok escape_port_re. Proof. apply esc_class_ok. reflexivity. Qed.
Lemma ok_path : class_ok escape_path_re. Proof. apply esc_class_ok. reflexivity. Qed.
Lemma ok_key : class_ok escape_query_key_re. Proof. apply esc_class_ok. reflexivity. Qed.
Lemma ok_value : class_ok escape_query_value_re. Proof. apply esc_class_ok. reflexivity. Qed.
#[export] Hint Resolve ok_re ok_user ok_password ok_host ok_port ok_path ok_key ok_value : esc.

(** text.split(c, 1) *)
Lemma splitn1_none c s : ~ In c s -> py_splitn 1 [c] s = [s].
Proof. intros N. unfold py_splitn. apply index1_None in N. now rewrite N. Qed.
Lemma splitn1_at c a b : ~ In c a -> py_splitn 1 [c] (a ++ c :: b) = [a; b].
Proof.
  intros N. unfold py_splitn. rewrite index1_app by exact N. rewrite firstn_app_exact by reflexivity.
  f_equal. f_equal. cbn [length]. replace (length a + 1)%nat with (S (length a)) by lia. apply skipn_S_app.
Qed.

(** ** the network location; [proc] is what the fields are processed with *)
Section net.
Variable proc : text -> text.

Definition host_part (h : text) (port : option text) : text :=
  h ++ match port with Some p => [58] ++ p | None => [] end.
Lemma split_netloc_none_host user password (pre : text) :
  find1 64 pre 0 = len pre - 1 -> (0 < len pre) ->
  match py_splitn 1 [58] (pyslice pre 0 (len pre - 1)) with
  | [u; p] => (Some (proc u), Some (proc p)) | u :: _ => (Some (proc u), None) | [] => (None, None) end = (user, password) ->
  split_netloc proc pre = {| n_user := user; n_password := password; n_host := None; n_port := None |}.
Proof.
  intros F L H. unfold split_netloc. rewrite F. replace (len pre - 1 =? -1) with false by lia.
  destruct (py_splitn 1 [58] (pyslice pre 0 (len pre - 1))) as [|u [|p [|x l]]]; injection H as <- <-;
    replace (len pre - 1 + 1 >=? len pre) with true by lia; reflexivity.
Qed.
(** the host and port after the prefix *)
Lemma pyindex_pre (pre : text) c r : pyindex (pre ++ c :: r) (len pre) = Ok c.
Proof.
  unfold pyindex. pose proof (len_nonneg pre). replace (len pre <? 0) with false by lia. rewrite len_app, len_cons. pose proof (len_nonneg r).
  replace ((0 <=? len pre) && (len pre <? len pre + (1 + len r))) with true by lia.
  unfold len. rewrite Nat2Z.id, nth_error_app2, Nat.sub_diag by lia. reflexivity.
Qed.
Lemma rest_plain (pre h : text) port user password : h <> [] -> ~ In 58 h -> hd 0 h <> 91 ->
  let s := pre ++ host_part h port in
  (if len pre >=? len s then {| n_user := user; n_password := password; n_host := None; n_port := None |}
   else if match pyindex s (len pre) with Ok c => c =? 91 | Err _ => false end then
        let next_pos := find1 93 s (len pre) in
        let next_pos := if next_pos =? -1 then len s - 1 else next_pos in
        let addr := pyslice s (len pre) (next_pos + 1) in
        let colon := find1 58 s (next_pos + 1) in
        {| n_user := user; n_password := password; n_host := Some addr;
           n_port := if colon =? -1 then None else Some (proc (pyslice s (colon + 1) (len s))) |}
    else
        let colon := find1 58 s (len pre) in
        if colon =? -1
        then {| n_user := user; n_password := password; n_host := Some (proc (pyslice s (len pre) (len s))); n_port := None |}
        else {| n_user := user; n_password := password; n_host := Some (proc (pyslice s (len pre) colon));
                n_port := Some (proc (pyslice s (colon + 1) (len s))) |})
  = {| n_user := user; n_password := password; n_host := Some (proc h); n_port := option_map proc port |}.
Proof.
  intros NE NC HD s. destruct h as [|c h]; [congruence|]. cbn [hd] in HD.
  assert (LS : len s = len pre + (1 + len h) + match port with Some p => 1 + len p | None => 0 end).
  { unfold s, host_part. rewrite !len_app, len_cons. destruct port; [rewrite len_app; change (len [58]) with 1|rewrite len0]; lia. }
  pose proof (len_nonneg pre). pose proof (len_nonneg h).
  assert (LP : 0 <= match port with Some p => 1 + len p | None => 0 end) by (destruct port as [p|]; [pose proof (len_nonneg p)|]; lia).
  replace (len pre >=? len s) with false by lia.
  unfold s at 1. unfold host_part. cbn [app]. rewrite pyindex_pre. replace (c =? 91) with false by lia.
  destruct port as [p|]; cbn [option_map].
  - assert (F : find1 58 s (len pre) = len pre + (1 + len h)).
    { unfold s, host_part. cbn [app]. change (c :: h ++ 58 :: p) with ((c :: h) ++ 58 :: p). rewrite find_at by exact NC. now rewrite len_cons. }
    cbv zeta. rewrite F. replace (len pre + (1 + len h) =? -1) with false by lia. f_equal; f_equal; f_equal.
    + unfold s, host_part. apply pyslice_app; rewrite ?len_cons; lia.
    + rewrite LS. unfold s, host_part. rewrite (app_assoc (c :: h)), app_assoc. apply slice_to_end; rewrite !len_app, len_cons; change (len [58]) with 1; lia.
  - assert (F : find1 58 s (len pre) = -1).
    { unfold s, host_part. rewrite app_nil_r. apply find_none. exact NC. }
    cbv zeta. rewrite F. change (-1 =? -1) with true. cbv iota. f_equal. f_equal. f_equal.
    rewrite LS. unfold s, host_part. rewrite app_nil_r. apply slice_to_end; rewrite ?len_cons; lia.
Qed.
Lemma rest_bracket (pre a : text) port user password : ~ In 93 a ->
  let s := pre ++ host_part ([91] ++ a ++ [93]) port in
  (if len pre >=? len s then {| n_user := user; n_password := password; n_host := None; n_port := None |}
   else if match pyindex s (len pre) with Ok c => c =? 91 | Err _ => false end then
        let next_pos := find1 93 s (len pre) in
        let next_pos := if next_pos =? -1 then len s - 1 else next_pos in
        let addr := pyslice s (len pre) (next_pos + 1) in
        let colon := find1 58 s (next_pos + 1) in
        {| n_user := user; n_password := password; n_host := Some addr;
           n_port := if colon =? -1 then None else Some (proc (pyslice s (colon + 1) (len s))) |}
    else
        let colon := find1 58 s (len pre) in
        if colon =? -1
        then {| n_user := user; n_password := password; n_host := Some (proc (pyslice s (len pre) (len s))); n_port := None |}
        else {| n_user := user; n_password := password; n_host := Some (proc (pyslice s (len pre) colon));
                n_port := Some (proc (pyslice s (colon + 1) (len s))) |})
  = {| n_user := user; n_password := password; n_host := Some ([91] ++ a ++ [93]); n_port := option_map proc port |}.
Proof.
  intros NC s.
  assert (LS : len s = len pre + (2 + len a) + match port with Some p => 1 + len p | None => 0 end).
  { unfold s, host_part. rewrite !len_app. change (len [91]) with 1. change (len [93]) with 1. destruct port; [rewrite len_app; change (len [58]) with 1|rewrite len0]; lia. }
  pose proof (len_nonneg pre). pose proof (len_nonneg a).
  assert (LP : 0 <= match port with Some p => 1 + len p | None => 0 end) by (destruct port as [p|]; [pose proof (len_nonneg p)|]; lia).
  replace (len pre >=? len s) with false by lia.
  unfold s at 1. unfold host_part. cbn [app]. rewrite pyindex_pre. change (91 =? 91) with true. cbv iota.
  assert (F : find1 93 s (len pre) = len pre + (1 + len a)).
  { unfold s, host_part. cbn [app]. replace (91 :: (a ++ [93]) ++ match port with Some p => 58 :: p | None => [] end)
      with ((91 :: a) ++ 93 :: match port with Some p => 58 :: p | None => [] end) by (cbn [app]; rewrite <- app_assoc; reflexivity).
    rewrite find_at; [now rewrite len_cons|]. intros [E|I]; [discriminate|contradiction]. }
  cbv zeta. rewrite F. replace (len pre + (1 + len a) =? -1) with false by lia.
  assert (A : pyslice s (len pre) (len pre + (1 + len a) + 1) = [91] ++ a ++ [93]).
  { unfold s, host_part. apply pyslice_app; rewrite ?len_app; change (len [91]) with 1; change (len [93]) with 1; lia. }
  rewrite A.
  assert (LB : len pre + (1 + len a) + 1 = len (pre ++ [91] ++ a ++ [93])).
  { rewrite !len_app. change (len [91]) with 1. change (len [93]) with 1. lia. }
  destruct port as [p|]; cbn [option_map].
  - assert (G : find1 58 s (len pre + (1 + len a) + 1) = len pre + (1 + len a) + 1).
    { rewrite LB. unfold s, host_part. rewrite app_assoc. cbn [app].
      assert (K := find_at 58 (pre ++ 91 :: a ++ [93]) [] p ltac:(auto)). cbn [app] in K. rewrite K. rewrite len0. lia. }
    rewrite G. replace (_ =? -1) with false by lia. f_equal. f_equal. f_equal. rewrite LS.
    unfold s, host_part. rewrite (app_assoc _ [58]), app_assoc. apply slice_to_end; rewrite !len_app;
      change (len [91]) with 1; change (len [93]) with 1; change (len [58]) with 1; lia.
  - assert (G : find1 58 s (len pre + (1 + len a) + 1) = -1).
    { rewrite LB. unfold s, host_part. rewrite app_nil_r. assert (K := find_none 58 (pre ++ [91] ++ a ++ [93]) []). rewrite app_nil_r in K. apply K. auto. }
    rewrite G. reflexivity.
Qed.
End net.
Arguments find1 : simpl never.

(** the user part *)
Definition user_part (u : text) (pw : option text) : text := u ++ match pw with Some p => [58] ++ p | None => [] end ++ [64].
Lemma user_find u pw rest : ~ In 64 u -> on_opt (fun p => ~ In 64 p) pw ->
  find1 64 (user_part u pw ++ rest) 0 = len (user_part u pw) - 1.
Proof.
  intros NU NP. unfold user_part.
  set (b := u ++ match pw with Some p => [58] ++ p | None => [] end).
  assert (E : (u ++ match pw with Some p => [58] ++ p | None => [] end ++ [64]) = b ++ [64]) by (unfold b; now rewrite <- app_assoc).
  rewrite E. rewrite <- app_assoc. cbn [app].
  assert (K := find_at 64 [] b rest). cbn [app] in K. change (len (@nil Z)) with 0 in K. rewrite K.
  - rewrite len_app. change (len [64]) with 1. lia.
  - unfold b. rewrite in_app_iff. destruct pw; cbn [on_opt app In] in *; intuition congruence.
Qed.
Lemma user_fields proc u pw rest : ~ In 58 u ->
  match py_splitn 1 [58] (pyslice (user_part u pw ++ rest) 0 (len (user_part u pw) - 1)) with
  | [a; p] => (Some (proc a : text), Some (proc p : text)) | a :: _ => (Some (proc a), None) | [] => (None, None) end
  = (Some (proc u), option_map proc pw).
Proof.
  intros NU. set (b := u ++ match pw with Some p => [58] ++ p | None => [] end).
  assert (E : user_part u pw = b ++ [64]) by (unfold b, user_part; now rewrite <- app_assoc).
  assert (S : pyslice (user_part u pw ++ rest) 0 (len (user_part u pw) - 1) = b).
  { rewrite E, <- app_assoc. apply (pyslice_app [] b); [reflexivity|]. rewrite len_app. change (len [64]) with 1. rewrite len0. lia. }
  rewrite S. unfold b. destruct pw as [p|]; cbn [option_map].
  - cbn [app]. rewrite splitn1_at by exact NU. reflexivity.
  - rewrite app_nil_r, splitn1_none by exact NU. reflexivity.
Qed.

Lemma hx c : hexchar c -> c = 37 \/ 48 <= c <= 57 \/ 65 <= c <= 70. Proof. auto. Qed.
Ltac nohex := unfold hexchar; lia.

(** what split_netloc finds in a location that was made of escaped fields, with any
    processing [proc] of the fields: the escaped fields, processed; a host in brackets
    is not processed *)
Definition escaped_net (n : netloc) : netloc :=
  {| n_user := option_map (ri_escape escape_user_re) (n_user n);
     n_password := option_map (ri_escape escape_password_re) (n_password n);
     n_host := option_map (ri_escape escape_host_re) (n_host n);
     n_port := option_map (ri_escape escape_port_re) (n_port n) |}.
Definition is_bracket (h : text) : bool := match h with c :: _ => c =? 91 | [] => false end.
Definition proc_net (proc : text -> text) (n : netloc) : netloc :=
  {| n_user := option_map proc (n_user n); n_password := option_map proc (n_password n);
     n_host := option_map (fun h => if is_bracket h then h else proc h) (n_host n);
     n_port := option_map proc (n_port n) |}.
Lemma split_unsplit_net proc n : proper_net n ->
  exists s, unsplit_netloc n = Some s /\ split_netloc proc s = proc_net proc (escaped_net n).
Proof.
  intros (HH & HU & HN & HP). destruct n as [user pw host port]. cbn [n_user n_password n_host n_port] in *.
  unfold unsplit_netloc, proc_net, escaped_net. cbn [n_user n_password n_host n_port].
  set (pre := match user with Some u => user_part (ri_escape escape_user_re u) (option_map (ri_escape escape_password_re) pw) | None => [] end).
  assert (HPRE : match user with
      | Some u => ri_escape escape_user_re u ++
                  match pw with Some p => [58] ++ ri_escape escape_password_re p | None => [] end ++ [64]
      | None => [] end = pre).
  { unfold pre, user_part. destruct user, pw; reflexivity. }
  assert (U58 : forall u, ~ In 58 (ri_escape escape_user_re u)) by (intros u; apply escape_free; auto with esc; nohex).
  assert (U64 : forall u, ~ In 64 (ri_escape escape_user_re u)) by (intros u; apply escape_free; auto with esc; nohex).
  assert (P64 : on_opt (fun p => ~ In 64 p) (option_map (ri_escape escape_password_re) pw)).
  { destruct pw; cbn; auto. apply escape_free; auto with esc; nohex. }
  (* the first lines of split_netloc *)
  assert (FIRST : forall rest, (forall c, In c rest -> user = None -> c <> 64) ->
     (let at_ := find1 64 (pre ++ rest) 0 in
      if at_ =? -1 then (None, None, 0)
      else match py_splitn 1 [58] (pyslice (pre ++ rest) 0 at_) with
         | [u; p] => (Some (proc u), Some (proc p), at_ + 1)
         | u :: _ => (Some (proc u), None, at_ + 1)
         | [] => (None, None, at_ + 1)
         end) = (option_map proc (option_map (ri_escape escape_user_re) user),
                 option_map proc (option_map (ri_escape escape_password_re) pw), len pre)).
  { intros rest NR. cbv zeta. unfold pre. destruct user as [u|].
    - rewrite user_find by auto.
      assert (L : 0 < len (user_part (ri_escape escape_user_re u) (option_map (ri_escape escape_password_re) pw))).
      { unfold user_part. rewrite !len_app. change (len [64]) with 1. pose proof (len_nonneg (ri_escape escape_user_re u)).
        match goal with |- context [len ?m + 1] => pose proof (len_nonneg m) end. lia. }
      replace (_ =? -1) with false by lia.
      assert (K := user_fields proc (ri_escape escape_user_re u) (option_map (ri_escape escape_password_re) pw) rest (U58 u)).
      destruct (py_splitn 1 [58] _) as [|a [|b [|]]]; try discriminate; injection K as -> K;
        cbn [option_map]; try rewrite K; f_equal; lia.
    - cbn [app]. assert (K := find_none 64 [] rest). cbn [app] in K. change (len (@nil Z)) with 0 in K. rewrite K.
      + rewrite HU by reflexivity. reflexivity.
      + intros I. eapply NR; eauto. }
  destruct host as [h|].
  - set (s := pre ++ host_part (ri_escape escape_host_re h) (option_map (ri_escape escape_port_re) port)).
    exists s. split.
    { unfold s, host_part. rewrite <- HPRE. destruct user, port; reflexivity. }
    assert (R : forall c, In c (host_part (ri_escape escape_host_re h) (option_map (ri_escape escape_port_re) port)) -> user = None -> c <> 64).
    { intros c I Hu E. subst c. unfold host_part in I. apply in_app_iff in I as [I|I].
      - apply In_escape in I as [I|[I _]]; auto with esc; [unfold hexchar in I; lia|].
        destruct HH as [(_ & _ & K & _)|(a & -> & _ & _ & K)]; [apply K; auto|].
        rewrite !in_app_iff in I. cbn [In] in I. assert (X := K Hu). intuition congruence.
      - destruct port as [p|]; cbn [option_map] in I; [|contradiction]. cbn [app In] in I. destruct I as [I|I]; [discriminate|].
        apply In_escape in I as [I|[I _]]; auto with esc; [unfold hexchar in I; lia|]. exact (HP Hu I). }
    unfold split_netloc. assert (F := FIRST _ R). fold s in F. cbv zeta in F. rewrite F. clear F. cbv iota beta.
    cbn [option_map].
    destruct HH as [(NE & N58 & _ & HD)|(a & -> & N93 & FA & _)].
    + assert (B : is_bracket (ri_escape escape_host_re h) = false).
      { destruct h as [|c h]; [congruence|]. cbn [hd] in HD. unfold ri_escape. cbn [flat_map]. destruct (escape_host_re c); cbn; [reflexivity|lia]. }
      rewrite B.
      assert (K := rest_plain proc pre (ri_escape escape_host_re h) (option_map (ri_escape escape_port_re) port)
         (option_map proc (option_map (ri_escape escape_user_re) user)) (option_map proc (option_map (ri_escape escape_password_re) pw))).
      apply K.
      * intros E. apply escape_nil in E. contradiction.
      * apply escape_free'; auto with esc. nohex.
      * destruct (ri_escape escape_host_re h) as [|x y]; [cbn; lia|]. cbn in B |- *. lia.
    + assert (EI : ri_escape escape_host_re ([91] ++ a ++ [93]) = [91] ++ a ++ [93]).
      { apply escape_id. apply Forall_app. split; [repeat constructor|]. apply Forall_app. split; [exact FA|repeat constructor]. }
      unfold s. rewrite EI. cbn [app is_bracket]. change (91 =? 91) with true. cbv iota.
      assert (K := rest_bracket proc pre a (option_map (ri_escape escape_port_re) port)
         (option_map proc (option_map (ri_escape escape_user_re) user)) (option_map proc (option_map (ri_escape escape_password_re) pw)) N93).
      exact K.
  - subst port. destruct user as [u|]; [|exfalso; auto].
    exists pre. split; [rewrite HPRE, app_nil_r; reflexivity|].
    unfold split_netloc. assert (F := FIRST [] ltac:(intros c [])). rewrite app_nil_r in F. cbv zeta in F. rewrite F. cbv iota beta.
    replace (len pre >=? len pre) with true by lia. reflexivity.
Qed.
Lemma unescape_net n : proper_net n -> proc_net ri_unescape (escaped_net n) = n.
Proof.
  intros (HH & _). destruct n as [user pw host port]. unfold proc_net, escaped_net. cbn [n_user n_password n_host n_port] in *.
  assert (O : forall cls o, class_ok cls -> option_map ri_unescape (option_map (ri_escape cls) o) = o)
    by (intros cls [x|] K; cbn; [now rewrite unescape_escape|reflexivity]).
  rewrite !O by auto with esc. f_equal. destruct host as [h|]; [|reflexivity]. cbn [option_map]. f_equal.
  destruct HH as [(NE & N58 & _ & HD)|(a & -> & N93 & FA & _)].
  - replace (is_bracket (ri_escape escape_host_re h)) with false; [apply unescape_escape; auto with esc|].
    destruct h as [|c h]; [congruence|]. cbn [hd] in HD. unfold ri_escape. cbn [flat_map]. destruct (escape_host_re c); cbn; [reflexivity|lia].
  - rewrite escape_id; [reflexivity|]. apply Forall_app. split; [repeat constructor|]. apply Forall_app. split; [exact FA|repeat constructor].
Qed.
