From Verif Require Import PyStr PyStrProof PyStrProof2 PyListProof BaseProof RIModel RISpec RIProof RIProof2.

Lemma free_intro bad s : (forall c, In c bad -> ~ In c s) -> free bad s.
Proof. intros H. apply Forall_forall. intros c I J. exact (H c J I). Qed.
Lemma In_join sep c l : In c (py_join sep l) -> In c sep \/ exists x, In x l /\ In c x.
Proof.
  induction l as [|x l IH]; [intros []|]. destruct l as [|y l].
  - cbn [py_join]. intros H. right. exists x. cbn. auto.
  - rewrite py_join_cons by discriminate. rewrite !in_app_iff. intros [H|[H|H]]; [right; exists x; cbn; auto|auto|].
    apply IH in H as [H|(z & I & H)]; [auto|right; exists z; cbn [In] in *; auto].
Qed.

(** the location part of a constructed tuple *)
Lemma netloc_free n s : unsplit_netloc n = Some s -> free [47; 63; 35] s.
Proof.
  intros H. apply free_intro. intros c C. unfold unsplit_netloc in H.
  assert (NU : forall u, ~ In c (ri_escape escape_user_re u)) by (intros; cbn [In] in C; apply escape_free; auto with esc; [|unfold hexchar; lia];
     destruct C as [<-|[<-|[<-|[]]]]; reflexivity).
  assert (NP : forall u, ~ In c (ri_escape escape_password_re u)) by (intros; cbn [In] in C; apply escape_free; auto with esc; [|unfold hexchar; lia];
     destruct C as [<-|[<-|[<-|[]]]]; reflexivity).
  assert (NH : forall u, ~ In c (ri_escape escape_host_re u)) by (intros; cbn [In] in C; apply escape_free; auto with esc; [|unfold hexchar; lia];
     destruct C as [<-|[<-|[<-|[]]]]; reflexivity).
  assert (NQ : forall u, ~ In c (ri_escape escape_port_re u)) by (intros; cbn [In] in C; apply escape_free; auto with esc; [|unfold hexchar; lia];
     destruct C as [<-|[<-|[<-|[]]]]; reflexivity).
  assert (c <> 58 /\ c <> 64) as [E1 E2] by (cbn [In] in C; lia).
  destruct n as [[u|] pw [h|] port]; cbn [n_user n_password n_host n_port] in H; try discriminate; injection H as <-;
    destruct pw, port; rewrite ?in_app_iff; cbn [In]; rewrite ?in_app_iff; cbn [In];
    repeat match goal with |- context [ri_escape escape_user_re ?u] => pose proof (NU u); generalize dependent (ri_escape escape_user_re u); intros
           | |- context [ri_escape escape_password_re ?u] => pose proof (NP u); generalize dependent (ri_escape escape_password_re u); intros
           | |- context [ri_escape escape_host_re ?u] => pose proof (NH u); generalize dependent (ri_escape escape_host_re u); intros
           | |- context [ri_escape escape_port_re ?u] => pose proof (NQ u); generalize dependent (ri_escape escape_port_re u); intros end; intuition congruence.
Qed.
Lemma netloc_nonempty n s : proper_net n -> unsplit_netloc n = Some s -> s <> [].
Proof.
  intros (HH & _ & HN & _) H E. subst s. unfold unsplit_netloc in H. destruct n as [[u|] pw [h|] port]; cbn [n_user n_password n_host n_port] in *; try discriminate.
  - injection H as H. apply app_eq_nil in H as [H _]. apply app_eq_nil in H as [_ H]. apply app_eq_nil in H as [_ H]. discriminate.
  - injection H as H. apply app_eq_nil in H as [H _]. apply app_eq_nil in H as [_ H]. apply app_eq_nil in H as [_ H]. discriminate.
  - injection H as H. apply app_eq_nil in H as [H _]. apply escape_nil in H. subst h. destruct HH as [(K & _)|(a & K & _)]; [congruence|discriminate].
Qed.
Lemma construct_proper d : proper_dict d -> proper (ri_construct d).
Proof.
  intros ((sc & E & F) & HN & HP & HQ). unfold proper, ri_construct. cbn [r_scheme r_netloc r_path r_query].
  split; [exists sc; auto|]. split; [|split].
  - destruct (unsplit_netloc (d_net d)) as [s|] eqn:U; [|exact I]. cbn [on_opt]. split; [|eapply netloc_free; eauto].
    destruct HN as [HN|HN]; [rewrite HN in U; discriminate|]. eapply netloc_nonempty; eauto.
  - destruct (d_path d) as [p|]; [|exact I]. cbn [on_opt]. apply free_intro. intros c C H.
    apply In_join in H as [H|(x & J & H)]; [cbn [In] in *; lia|]. apply in_map_iff in J as (y & <- & J).
    revert H. apply escape_free; auto with esc; cbn [In] in C; [|unfold hexchar; lia]. destruct C as [<-|[<-|[]]]; reflexivity.
  - destruct (d_query d) as [q|]; [|exact I]. cbn [on_opt]. apply free_intro. intros c C H. destruct C as [<-|[]].
    unfold construct_query in H. apply In_join in H as [H|(x & J & H)]; [cbn [In] in *; lia|]. apply in_map_iff in J as ((k & [v|]) & <- & J); cbn [fst snd] in H.
    + rewrite !in_app_iff in H. destruct H as [H|[H|H]]; [|cbn [In] in H; lia|]; revert H; apply escape_free; auto with esc; unfold hexchar; lia.
    + revert H; apply escape_free; auto with esc; unfold hexchar; lia.
Qed.
Lemma join_nil sep l : py_join sep l = [] -> sep <> [] -> l = [] \/ l = [[]].
Proof.
  intros H N. destruct l as [|x [|y l]]; [auto| |].
  - cbn in H. subst. auto.
  - rewrite py_join_cons in H by discriminate. apply app_eq_nil in H as [_ H]. apply app_eq_nil in H as [H _]. contradiction.
Qed.
Lemma map_id_on {A} (f : A -> A) l : Forall (fun x => f x = x) l -> map f l = l.
Proof. induction 1; cbn; congruence. Qed.
Definition show_item (kv : text * option text) : text :=
  match snd kv with
  | Some v => ri_escape escape_query_key_re (fst kv) ++ [61] ++ ri_escape escape_query_value_re v
  | None => ri_escape escape_query_key_re (fst kv)
  end.
Lemma item_back kv : query_item ri_unescape (show_item kv) = kv.
Proof.
  assert (K : forall k, ~ In 61 (ri_escape escape_query_key_re k)) by (intros; apply escape_free; auto with esc; unfold hexchar; lia).
  destruct kv as [k [v|]]; unfold show_item, query_item; cbn [fst snd].
  - cbn [app]. rewrite splitn1_at by auto. rewrite !unescape_escape by auto with esc. reflexivity.
  - rewrite splitn1_none by auto. rewrite unescape_escape by auto with esc. reflexivity.
Qed.
Lemma item_no_amp kv : ~ In 38 (show_item kv).
Proof.
  destruct kv as [k [v|]]; unfold show_item; cbn [fst snd].
  - rewrite !in_app_iff. intros [H|[H|H]]; [|cbn [In] in H; lia|]; revert H; apply escape_free; auto with esc; unfold hexchar; lia.
  - apply escape_free; auto with esc; unfold hexchar; lia.
Qed.
Lemma parse_serialize d : proper_dict d -> ri_parse ri_unescape (ri_serialize d) = d.
Proof.
  intros P. unfold ri_parse, ri_serialize. rewrite split_unsplit by now apply construct_proper.
  destruct P as (_ & HN & HP & HQ). destruct d as [sc net path query frag]. unfold ri_structure, ri_construct.
  cbn [r_scheme r_netloc r_path r_query r_fragment d_scheme d_net d_path d_query d_fragment] in *. f_equal.
  - destruct HN as [->|HN]; [reflexivity|]. destruct (split_unsplit_net ri_unescape net HN) as (s & -> & ->). now apply unescape_net.
  - destruct path as [p|]; [|reflexivity].
    destruct (py_join [47] (map (ri_escape escape_path_re) p)) as [|c r] eqn:E.
    + apply join_nil in E; [|discriminate]. destruct E as [E|E].
      * destruct p; [reflexivity|discriminate].
      * exfalso. apply HP. destruct p as [|x [|y p]]; try discriminate. cbn [map] in E. injection E as E. apply escape_nil in E. now subst.
    + rewrite <- E. f_equal. rewrite split_join.
      * rewrite map_map. apply map_id_on. apply Forall_forall. intros x _. apply unescape_escape; auto with esc.
      * intros N. rewrite N in E. discriminate.
      * apply Forall_forall. intros x I. apply in_map_iff in I as (y & <- & _). apply escape_free; auto with esc. unfold hexchar; lia.
  - destruct query as [q|]; [|reflexivity]. change (construct_query q) with (py_join [38] (map show_item q)).
    destruct (py_join [38] (map show_item q)) as [|c r] eqn:E.
    + apply join_nil in E; [|discriminate]. destruct E as [E|E].
      * destruct q; [reflexivity|discriminate].
      * exfalso. apply HQ. destruct q as [|x [|y p]]; try discriminate. cbn [map] in E. injection E as E. destruct x as [k [v|]]; unfold show_item in E; cbn [fst snd] in E.
        -- apply app_eq_nil in E as [_ E]. discriminate.
        -- apply escape_nil in E. now subst.
    + rewrite <- E. f_equal. rewrite split_join.
      * rewrite map_map. apply map_id_on. apply Forall_forall. intros x _. apply item_back.
      * intros N. rewrite N in E. discriminate.
      * apply Forall_forall. intros x I. apply in_map_iff in I as (y & <- & _). apply item_no_amp.
  - destruct frag; [|reflexivity]. now rewrite unescape_escape by auto with esc.
Qed.
