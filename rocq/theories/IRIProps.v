(** IRIProps.v: C23, connection parameters and PQ IRIs. *)
From Coq Require Import Permutation.
From Verif Require Import PyStr PyStrProof PyListProof BaseProof RIModel RISpec RIProof IRIModel IRISpec PyDict PyDictProof StrModel StrSpec StrProof IRIProof4.

(** C23: the parameters written as an IRI are read back, whatever the strings, when they
    are expressible (IRISpec.v).  Missing: the cases of the refutations below. *)
Theorem C23_roundtrip_partial : forall U repr x, unicode_ok U -> expressible x ->
  exists s y, iri_serialize U repr x false = Ok s /\ iri_parse U s = Ok y /\ same_params y x.
Proof. exact parse_serialize_iri. Qed.
Print Assumptions C23_roundtrip_partial.

(** C23: when the password is obscured, what is written does not depend on it: it is
    the same for any two passwords, whatever the other parameters. *)
Lemma filter_driver (a b : cpd) k v w : is_reserved k = true ->
  filter (fun p => negb (is_reserved (fst p))) (dset k v a) = filter (fun p => negb (is_reserved (fst p))) (dset k w a).
Proof.
  intros R. induction a as [|[j u] a IH]; cbn [dset filter fst]; [now rewrite R|].
  destruct (seqb k j) eqn:S; cbn [filter fst]; [|now rewrite IH]. apply seqb_eq in S. subst. rewrite R. reflexivity.
Qed.
Theorem C23_obscured : forall U repr x p q, p <> PNone -> q <> PNone ->
  iri_serialize U repr (dset (str "password") p x) true = iri_serialize U repr (dset (str "password") q x) true.
Proof.
  intros U repr x p q P Q. unfold iri_serialize, iri_construct, iri_host, iri_path, driver_params.
  assert (O : forall k v, k <> str "password" -> dget k (dset (str "password") v x) = dget k x) by (intros; now apply dget_set_other).
  rewrite !dget_set_same, !O by discriminate. rewrite (filter_driver x x (str "password") p q) by reflexivity.
  destruct p, q; try congruence; reflexivity.
Qed.
Print Assumptions C23_obscured.
(** without a password nothing is added *)
Theorem C23_obscured_absent : forall U repr x, absent (str "password") x ->
  iri_serialize U repr x true = iri_serialize U repr x false.
Proof. intros U repr x H. unfold iri_serialize, iri_construct. rewrite H. reflexivity. Qed.
Print Assumptions C23_obscured_absent.

Definition norepr (v : pval) : text := [].
Definition roundtrip (x : cpd) : res (text * res cpd) :=
  do s <- iri_serialize ascii_unicode norepr x false; Ok (s, iri_parse ascii_unicode s).
(** C23, refuted in full: a database name with a slash or a question mark is written as it is *)
Theorem C23_database_refuted :
  roundtrip [(str "host", PStr (str "h")); (str "database", PStr (str "a/b"))] =
    Ok (str "pq://h/a/b", Ok [(str "host", PStr (str "h")); (str "database", PStr (str "a")); (str "path", PList [str "b"])]) /\
  roundtrip [(str "host", PStr (str "h")); (str "database", PStr (str "a?[user]=root"))] =
    Ok (str "pq://h/a?[user]=root", Ok [(str "host", PStr (str "h")); (str "database", PStr (str "a")); (str "user", PStr (str "root"))]).
Proof. split; vm_compute; reflexivity. Qed.
Print Assumptions C23_database_refuted.
(** refuted: the escapes of the database name are not decoded *)
Theorem C23_database_escape_refuted :
  iri_parse ascii_unicode (str "pq://h/a%20b") = Ok [(str "host", PStr (str "h")); (str "database", PStr (str "a%20b"))].
Proof. vm_compute. reflexivity. Qed.
Print Assumptions C23_database_escape_refuted.
(** refuted: with ssl, whatever the other parameters are, what is written cannot be read *)
Lemma scheme_pqs r : r_scheme (ri_split (str "pqs" ++ [58; 47; 47] ++ r)) = Some (str "pqs").
Proof.
  assert (K : pyfind [58; 47; 47] (str "pqs" ++ [58; 47; 47] ++ r) 0 (len (str "pqs" ++ [58; 47; 47] ++ r)) = 3).
  { unfold pyfind. rewrite slice_full. rewrite index_head; [reflexivity|]. cbn. intuition discriminate. }
  unfold ri_split. rewrite K. change (negb (3 =? -1)) with true. cbv iota.
  assert (S : pyslice (str "pqs" ++ [58; 47; 47] ++ r) 0 3 = str "pqs") by (apply (pyslice_app []); reflexivity).
  rewrite S. change (forallb scheme_char (str "pqs")) with true. cbv iota.
  cbv zeta.
  repeat match goal with |- r_scheme match ?x with _ => _ end = _ => destruct x end.
  reflexivity.
Qed.
Theorem C23_ssl_refuted : forall U repr x s, unicode_ok U -> dget (str "ssl") x = Some (PBool true) ->
  iri_serialize U repr x false = Ok s -> iri_parse U s = Err ValueError.
Proof.
  intros U repr x s UO H E. unfold iri_serialize in E. apply bind_Ok in E as (t & C & E). okinv E.
  unfold iri_construct in C. apply bind_Ok in C as ([others sp] & _ & C). repeat (apply bind_Ok in C as (? & _ & C)). okinv C.
  rewrite H. unfold ri_unsplit. cbn [r_scheme]. rewrite <- app_assoc. unfold iri_parse, iri_structure, ri_parse, ri_structure. cbn [d_scheme].
  rewrite scheme_pqs.
  assert (L : py_lower U (str "pqs") = str "pqs").
  { unfold py_lower, str. cbn [list_ascii_of_string map]. cbn [concat map]. rewrite !(uo_lower U UO) by (split; [discriminate|reflexivity]). reflexivity. }
  rewrite L. reflexivity.
Qed.
Print Assumptions C23_ssl_refuted.
Theorem C23_ssl_unreadable_refuted : 
  roundtrip [(str "ssl", PBool true); (str "host", PStr (str "h"))] = Ok (str "pqs://h", Err ValueError).
Proof. vm_compute. reflexivity. Qed.
Print Assumptions C23_ssl_unreadable_refuted.
(** refuted: a setting without a value is written, and its IRI cannot be read *)
Theorem C23_none_setting_refuted :
  roundtrip [(str "host", PStr (str "h")); (str "settings", PDict [(str "a", PNone)])] = Ok (str "pq://h?a", Err TypeError).
Proof. vm_compute. reflexivity. Qed.
Print Assumptions C23_none_setting_refuted.
(** refuted: a port without a host, a password without a user, are lost; the scope of
    an IPv6 address is changed; one of two driver parameters is lost *)
Theorem C23_lost_refuted :
  roundtrip [(str "user", PStr (str "u")); (str "port", PStr (str "5432"))] = Ok (str "pq://u@", Ok [(str "user", PStr (str "u"))]) /\
  roundtrip [(str "host", PStr (str "h")); (str "password", PStr (str "s"))] = Ok (str "pq://h", Ok [(str "host", PStr (str "h"))]) /\
  roundtrip [(str "host", PStr (str "fe80::1%eth0"))] = Ok (str "pq://[fe80::1%25eth0]", Ok [(str "host", PStr (str "fe80::1%25eth0"))]) /\
  roundtrip [(str "host", PStr (str "h")); (str "a&", PStr (str "1")); (str "a%26", PStr (str "2"))] =
    Ok (str "pq://h?[a%2526]=2&[a%26]=1", Ok [(str "host", PStr (str "h")); (str "a%26", PStr (str "2"))]).
Proof. repeat split; vm_compute; reflexivity. Qed.
Print Assumptions C23_lost_refuted.

Definition C23_x : cpd :=
  [(str "user", PStr (str "m:@e")); (str "settings", PDict [(str "search_path", PList [str "a,b"; []]); (str "x=y", PStr (str "1&2")); (str "k", PStr [])]);
   (str "password", PStr (str "p@/#?:")); (str "host", PStr (str "::1")); (str "port", PStr (str "5432"));
   (str "zz", PStr (str "&")); (str "database", PStr (str "d%20b")); (str "path", PList [[]; str "p"]); (str "co nnect", PStr (str "=="))].
Example C23_ex : expressible C23_x /\
  iri_serialize ascii_unicode norepr C23_x false =
    Ok (str "pq://m%3A%40e:p%40%2F%23%3F:@[::1]:5432/d%20b//p?[co%20nnect]===&[zz]=%26&x%3Dy=1%262&k=#a%2Cb,") /\
  iri_serialize ascii_unicode norepr C23_x true =
    Ok (str "pq://m%3A%40e:***@[::1]:5432/d%20b//p?[co%20nnect]===&[zz]=%26&x%3Dy=1%262&k=#a%2Cb,").
Proof.
  split; [|split; vm_compute; reflexivity].
  unfold expressible. split; [repeat constructor; cbn; intuition discriminate|].
  split; [repeat constructor|]. split; [reflexivity|]. split; [reflexivity|].
  split; [discriminate|]. split; [right; reflexivity|]. split; [discriminate|]. split; [discriminate|].
  split; [|split; [exact I|split; [|split; [|split]]]].
  - split; [discriminate|]. split; [discriminate|]. split; [intros H; exfalso; apply H; cbn; auto|].
    intros _. split; [cbn; intuition discriminate|]. split; [repeat constructor|reflexivity].
  - split; [discriminate|]. repeat constructor; cbn; intuition discriminate.
  - split; [discriminate|]. eexists. split; [reflexivity|]. split; [discriminate|]. repeat constructor; cbn; intuition discriminate.
  - intros k v H R. cbn [In C23_x] in H.
    repeat match type of H with _ \/ _ => destruct H as [H|H] end; try contradiction; injection H as <- <-; try discriminate R;
      (split; [cbn; intuition discriminate|eexists; reflexivity]).
  - eexists. split; [reflexivity|]. split; [discriminate|]. split; [repeat constructor; cbn; intuition discriminate|]. split.
    + intros k v H N. cbn [In] in H. repeat match type of H with _ \/ _ => destruct H as [H|H] end; try contradiction; injection H as <- <-;
        try (exfalso; apply N; reflexivity); (split; [discriminate|split; [reflexivity|eexists; reflexivity]]).
    + intros v H. cbn [In] in H. repeat match type of H with _ \/ _ => destruct H as [H|H] end; try contradiction; try discriminate H; injection H as <-;
        eexists; split; [reflexivity|]; split; discriminate.
Qed.

(** a search_path given as a string means what it means to the server: the list of the identifiers in it *)
Lemma filter_search_path (d : cpd) v w :
  filter (fun p => negb (seqb (fst p) k_search_path)) (dset k_search_path v d) = filter (fun p => negb (seqb (fst p) k_search_path)) (dset k_search_path w d).
Proof.
  induction d as [|[j u] d IH]; cbn [dset filter fst]; [reflexivity|].
  destruct (seqb k_search_path j) eqn:E; cbn [filter fst]; [|now rewrite IH]. apply seqb_eq in E. subst j. reflexivity.
Qed.
Lemma split_settings_path d v : split_settings (Some (PDict (dset k_search_path v d))) =
  Ok (match filter (fun p => negb (seqb (fst p) k_search_path)) (dset k_search_path v d) with [] => None | l => Some l end, Some v).
Proof.
  pose proof (dget_set_same k_search_path v d) as G. destruct (dset k_search_path v d) as [|p l] eqn:E; [discriminate|]. unfold split_settings. rewrite G. destruct (filter _ (p :: l)); reflexivity.
Qed.
Theorem C23_path_string : forall U repr x d parts obscure, unicode_ok U -> parts <> [] ->
  iri_serialize U repr (dset k_settings (PDict (dset k_search_path (PStr (py_join (str ",") (map quote_ident parts))) d)) x) obscure =
  iri_serialize U repr (dset k_settings (PDict (dset k_search_path (PList parts) d)) x) obscure.
Proof.
  intros U repr x d parts obscure HU N. unfold iri_serialize, iri_construct, iri_host, iri_path, driver_params.
  assert (O : forall k v, k <> k_settings -> dget k (dset k_settings v x) = dget k x) by (intros; now apply dget_set_other).
  rewrite !dget_set_same, !O by discriminate.
  rewrite (filter_driver x x k_settings (PDict (dset k_search_path (PStr (py_join (str ",") (map quote_ident parts))) d)) (PDict (dset k_search_path (PList parts) d))) by reflexivity.
  rewrite !split_settings_path. cbn [bind]. rewrite (filter_search_path d (PStr (py_join (str ",") (map quote_ident parts))) (PList parts)).
  replace (path_list U (Some (PStr (py_join (str ",") (map quote_ident parts))))) with (path_list U (Some (PList parts))); [reflexivity|].
  unfold path_list, split_ident. change (str ",") with [44]. destruct parts as [|a l]; [congruence|]. rewrite split_using_cuts by discriminate. rewrite cuts_qname by (try discriminate; lia).
  rewrite (mapM_map_ok (split_ident1 U) quote_ident (a :: l)); [reflexivity|]. intros y. apply split_ident1_quoted. rewrite (uo_space U HU) by lia. reflexivity.
Qed.
Print Assumptions C23_path_string.
Example C23_path_string_ex : exists s, iri_serialize ascii_unicode (fun _ => []) [(k_settings, PDict [(k_search_path, PStr (str """a,b"",""c"""))])] false = Ok s /\
  iri_serialize ascii_unicode (fun _ => []) [(k_settings, PDict [(k_search_path, PList [str "a,b"; str "c"])])] false = Ok s.
Proof. eexists. split; vm_compute; reflexivity. Qed.
