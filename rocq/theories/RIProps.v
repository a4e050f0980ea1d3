(** RIProps.v: C22, resource indicators. *)
From Verif Require Import PyStr PyStrProof BaseProof RIModel RISpec RIProof RIProof2 RIProof3.

(** C22: splitting any string and joining the parts gives the string back. *)
Theorem C22_unsplit_split : forall s, ri_unsplit (ri_split s) = s.
Proof. exact unsplit_split. Qed.
Print Assumptions C22_unsplit_split.

(** C22: joining parts that contain none of the markers that end them, and splitting
    the result, gives the parts back. *)
Theorem C22_split_unsplit : forall t, proper t -> ri_split (ri_unsplit t) = t.
Proof. exact split_unsplit. Qed.
Print Assumptions C22_split_unsplit.

(** C22: escaping any field for any place, then unescaping it, gives the field back. *)
Theorem C22_escape : forall x cls,
  In cls [escape_re; escape_user_re; escape_password_re; escape_host_re; escape_port_re; escape_path_re; escape_query_key_re; escape_query_value_re] ->
  ri_unescape (ri_escape cls x) = x.
Proof.
  intros x cls H. apply unescape_escape. cbn [In] in H.
  repeat match type of H with _ \/ _ => destruct H as [<-|H]; [auto with esc|] end. contradiction.
Qed.
Print Assumptions C22_escape.

(** C22: unescaping keeps the text without escapes; *)
Theorem C22_unescape_plain : forall p s, ~ In 37 p -> ri_unescape (p ++ s) = p ++ ri_unescape s.
Proof.
  intros p s. induction p as [|c p IH]; intros N; [reflexivity|]. cbn [app ri_unescape]. destruct (Z.eqb_spec c 37) as [->|]; [exfalso; apply N; left; reflexivity|].
  now rewrite IH by (intros H; apply N; right; exact H).
Qed.
Print Assumptions C22_unescape_plain.
(** it treats each percent sign on its own; *)
Theorem C22_unescape_percent : forall p s, ri_unescape (p ++ 37 :: s) = ri_unescape p ++ ri_unescape (37 :: s).
Proof.
  intros p s. remember (length p) as n eqn:L. revert p L. induction n as [n IH] using (well_founded_induction lt_wf). intros p ->.
  destruct p as [|c p]; [reflexivity|]. assert (K : forall q, (length q < length (c :: p))%nat -> ri_unescape (q ++ 37 :: s) = ri_unescape q ++ ri_unescape (37 :: s)) by (intros q Hq; eapply IH; eauto).
  change ((c :: p) ++ 37 :: s) with (c :: (p ++ 37 :: s)). cbn [ri_unescape] in *. fold (ri_unescape (37 :: s)) in *.
  destruct (c =? 37); [|rewrite (K p) by (cbn; lia); reflexivity].
  destruct p as [|a [|b p]].
  - cbn [app]. destruct s as [|b r]; [reflexivity|]. replace (percent_escapes 37 b) with (@None Z) by reflexivity. reflexivity.
  - cbn [app]. replace (percent_escapes a 37) with (@None Z) by (unfold percent_escapes; destruct (hex_digit_val a); reflexivity).
    pose proof (K [a] ltac:(cbn; lia)) as KA. cbn [app] in KA. rewrite KA. reflexivity.
  - cbn [app]. pose proof (K p ltac:(cbn; lia)) as KP. pose proof (K (a :: b :: p) ltac:(cbn; lia)) as KB. cbn [app] in KB. destruct (percent_escapes a b); [rewrite KP|rewrite KB]; reflexivity.
Qed.
Print Assumptions C22_unescape_percent.
(** a percent sign with two hexadecimal digits stands for the character, and one without stays. *)
Theorem C22_unescape_hex : forall a b x y s, hex_value a x -> hex_value b y -> ri_unescape (37 :: a :: b :: s) = (Z.of_nat x * 16 + Z.of_nat y) :: ri_unescape s.
Proof.
  assert (H : forall a x, hex_value a x -> hex_digit_val a = Some (Z.of_nat x)).
  { intros a x H. unfold hex_value in H.
    do 16 (destruct x as [|x]; [cbn in H; destruct H as [H|H]; injection H as <-; reflexivity|]). destruct x; destruct H as [H|H]; discriminate. }
  intros a b x y s A B. cbn [ri_unescape]. unfold percent_escapes. rewrite (H a x A), (H b y B). reflexivity.
Qed.
Print Assumptions C22_unescape_hex.
Theorem C22_unescape_stray : forall s, (forall a b r x y, s = a :: b :: r -> hex_value a x -> hex_value b y -> False) -> ri_unescape (37 :: s) = 37 :: ri_unescape s.
Proof.
  assert (H : forall c v, hex_digit_val c = Some v -> exists x, hex_value c x).
  { intros c v H. unfold hex_digit_val in H.
    destruct ((48 <=? c) && (c <=? 57)) eqn:E1; [exists (Z.to_nat (c - 48)); left|destruct ((65 <=? c) && (c <=? 70)) eqn:E2; [exists (Z.to_nat (c - 55)); right|destruct ((97 <=? c) && (c <=? 102)) eqn:E3; [exists (Z.to_nat (c - 87)); left|discriminate]]].
    - assert (D : c = 48 \/ c = 49 \/ c = 50 \/ c = 51 \/ c = 52 \/ c = 53 \/ c = 54 \/ c = 55 \/ c = 56 \/ c = 57) by lia. repeat (destruct D as [->|D]; [reflexivity|]). subst. reflexivity.
    - assert (D : c = 65 \/ c = 66 \/ c = 67 \/ c = 68 \/ c = 69 \/ c = 70) by lia. repeat (destruct D as [->|D]; [reflexivity|]). subst. reflexivity.
    - assert (D : c = 97 \/ c = 98 \/ c = 99 \/ c = 100 \/ c = 101 \/ c = 102) by lia. repeat (destruct D as [->|D]; [reflexivity|]). subst. reflexivity. }
  intros s N. cbn [ri_unescape]. change (37 =? 37) with true. cbv iota. destruct s as [|a [|b r]]; [reflexivity|reflexivity|]. unfold percent_escapes.
  destruct (hex_digit_val a) as [v|] eqn:A; [|reflexivity]. destruct (hex_digit_val b) as [w|] eqn:B; [|reflexivity].
  destruct (H a v A) as [x HX]. destruct (H b w B) as [y HY]. exfalso. eapply N; eauto.
Qed.
Print Assumptions C22_unescape_stray.
Example C22_ex_unescape : ri_unescape (str "a%4%41%zz%c3") = str "a%4A%zz" ++ [195]. Proof. reflexivity. Qed.

(** C22: a network location written from a user, a password, a host and a port is read
    as those, when the host is unambiguous.  Missing: the cases of [C22_netloc_refuted]. *)
Theorem C22_netloc_partial : forall n, proper_net n ->
  exists s, unsplit_netloc n = Some s /\ split_netloc ri_unescape s = n.
Proof. intros n P. destruct (split_unsplit_net ri_unescape n P) as (s & E & F). exists s. split; [exact E|]. rewrite F. now apply unescape_net. Qed.
Print Assumptions C22_netloc_partial.

(** C22, refuted in full: an empty host is lost, a host with a colon is read as a host
    and a port, a host with an at sign and no user is read as a user and a host, and
    what is escaped of a host in brackets is not unescaped (the scope of an IPv6
    address). *)
Theorem C22_netloc_refuted :
  let mk u h p := {| n_user := u; n_password := None; n_host := Some h; n_port := p |} in
  let back n := match unsplit_netloc n with Some s => Some (split_netloc ri_unescape s) | None => None end in
  back (mk (Some (str "u")) [] None) = Some {| n_user := Some (str "u"); n_password := None; n_host := None; n_port := None |} /\
  back (mk None (str "a:b") None) = Some (mk None (str "a") (Some (str "b"))) /\
  back (mk None (str "a@b") None) = Some (mk (Some (str "a")) (str "b") None) /\
  back (mk None (str "[fe80::1%eth0]") None) = Some (mk None (str "[fe80::1%25eth0]") None).
Proof. vm_compute. repeat split. Qed.
Print Assumptions C22_netloc_refuted.

(** C22: a whole dictionary (scheme, user, password, host, port, path, query, fragment)
    written as an RI is parsed as that dictionary, when its scheme is one, its host is
    unambiguous, and neither its path nor its query is a single empty field. *)
Theorem C22_dict_partial : forall d, proper_dict d -> ri_parse ri_unescape (ri_serialize d) = d.
Proof. exact parse_serialize. Qed.
Print Assumptions C22_dict_partial.

(** C22, refuted in full: a path of one empty component is read as no component, and a
    dictionary without a scheme and with an unlucky path is read with one. *)
Theorem C22_dict_refuted :
  let mk sc p q := {| d_scheme := sc; d_net := no_netloc; d_path := p; d_query := q; d_fragment := None |} in
  ri_parse ri_unescape (ri_serialize (mk (Some (str "pq")) (Some [[]]) None)) = mk (Some (str "pq")) (Some []) None /\
  ri_parse ri_unescape (ri_serialize (mk (Some (str "pq")) None (Some [([], None)]))) = mk (Some (str "pq")) None (Some []) /\
  ri_parse ri_unescape (ri_serialize {| d_scheme := None; d_net := {| n_user := None; n_password := None; n_host := Some (str "a:"); n_port := None |};
     d_path := Some [[]; str "b"]; d_query := None; d_fragment := None |})
  = {| d_scheme := Some (str "a"); d_net := {| n_user := None; n_password := None; n_host := Some (str "b"); n_port := None |};
       d_path := None; d_query := None; d_fragment := None |}.
Proof. vm_compute. repeat split. Qed.
Print Assumptions C22_dict_refuted.

Definition C22_net : netloc := {| n_user := Some (str "me:@/"); n_password := Some (str "p:@#%41"); n_host := Some (str "h@"); n_port := Some (str "5432") |}.
Definition C22_net6 : netloc := {| n_user := None; n_password := None; n_host := Some (str "[::1]"); n_port := Some (str "5432") |}.
Definition C22_d (n : netloc) : rid := {| d_scheme := Some (str "pq"); d_net := n; d_path := Some [str "a/b"; []; str "c?"];
  d_query := Some [(str "k=&", Some (str "v=&#")); ([], Some []); (str "x", None)]; d_fragment := Some (str "#%") |}.
Lemma C22_net_ok : proper_net C22_net.
Proof.
  split; [left; split; [discriminate|]; split; [cbn; intuition lia|]; split; [discriminate|cbn; lia]|].
  split; [discriminate|]. split; discriminate.
Qed.
Lemma C22_net6_ok : proper_net C22_net6.
Proof.
  split; [right; exists (str "::1"); split; [reflexivity|]; split; [cbn; intuition lia|]; split; [repeat constructor|cbn; intuition lia]|].
  split; [reflexivity|]. split; [discriminate|]. cbn. intuition lia.
Qed.
Example C22_ex : proper_dict (C22_d C22_net) /\ proper_dict (C22_d C22_net6) /\ proper (ri_construct (C22_d C22_net)) /\
  ri_serialize (C22_d C22_net) = str "pq://me%3A%40%2F:p:%40%23%2541@h@:5432/a%2Fb//c%3F?k%3D%26=v=%26%23&=&x##%25" /\
  ri_serialize (C22_d C22_net6) = str "pq://[::1]:5432/a%2Fb//c%3F?k%3D%26=v=%26%23&=&x##%25".
Proof.
  assert (P : forall n, proper_net n -> proper_dict (C22_d n)).
  { intros n H. split; [exists (str "pq"); split; reflexivity|]. split; [right; exact H|]. split; discriminate. }
  pose proof (P _ C22_net_ok). pose proof (P _ C22_net6_ok).
  do 2 (split; [auto|]). split; [now apply construct_proper|]. split; vm_compute; reflexivity.
Qed.
