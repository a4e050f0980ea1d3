(** VersionProps.v: C20, version strings. *)
From Verif Require Import PyStr PyStrProof BaseProof PyInt PyIntProof VersionModel VersionSpec VersionProof.

(** C20: every way to write a version of the documented form, with blanks around it,
    splits into the tuple of its numbers, padded with None to three, its state word and
    its level. *)
Theorem C20_split : forall U dv v s before after, unicode_ok U -> valid U v -> written v s ->
  Forall (fun c => u_space U c = true) before -> Forall (fun c => u_space U c = true) after ->
  version_split U dv (before ++ s ++ after) = Ok (version_tuple v).
Proof. intros. apply split_written; auto. Qed.
Print Assumptions C20_split.

(** C20: unsplit gives a text that is again a way to write the same version, when there
    is no state word without a level.  Missing: see [C20_unsplit_refuted]. *)
Theorem C20_unsplit_partial : forall U dv v s, unicode_ok U -> valid U v -> written v s ->
  (forall w, v_state v <> Some (w, None)) ->
  exists t s', version_split U dv s = Ok t /\ version_unsplit t = Ok s' /\ written v s' /\
    version_split U dv s' = Ok t.
Proof.
  intros U dv v s UO V W N.
  assert (H : forall x, written v x -> version_split U dv x = Ok (version_tuple v)).
  { intros x Hx. rewrite <- (app_nil_r x). apply (split_written U dv UO v x [] []); auto. }
  exists (version_tuple v), (canonical v). split; [apply H, W|]. split; [eapply unsplit_tuple; eauto|].
  split; [eapply canonical_written; eauto|]. apply H. eapply canonical_written; eauto.
Qed.
Print Assumptions C20_unsplit_partial.

(** C20, refuted in full: a state word without a level comes back with the word None
    glued to it, and splitting the result fails or gives another version; four numbers
    cannot be unsplit at all. *)
Theorem C20_unsplit_refuted :
  let U := ascii_unicode in let dv := fun _ => None in
  written {| v_nums := [8; 3]; v_state := Some (str "dev", None) |} (str "8.3dev") /\
  version_split U dv (str "8.3dev") = Ok [VI 8; VI 3; VN; VS (str "dev"); VN] /\
  version_unsplit [VI 8; VI 3; VN; VS (str "dev"); VN] = Ok (str "8.3devNone") /\
  version_split U dv (str "8.3devNone") = Ok [VI 8; VI 3; VN; VS (str "devNone"); VN] /\
  version_split U dv (str "8.0.1.2") = Ok [VI 8; VI 0; VI 1; VI 2; VN] /\
  version_unsplit [VI 8; VI 0; VI 1; VI 2; VN] = Err TypeError.
Proof.
  cbv zeta. split.
  - exists [str "8"; str "3"], (str "dev"). split; [|split; reflexivity].
    repeat constructor; try discriminate; vm_compute; try (intros; discriminate).
  - do 4 (split; [vm_compute; reflexivity|]). vm_compute. reflexivity.
Qed.
Print Assumptions C20_unsplit_refuted.

(** C20: normalize replaces what is missing: 0 for numbers and level, 'final' for the word. *)
Theorem C20_normalize : forall U dv v s, unicode_ok U -> valid U v -> written v s ->
  exists t, version_split U dv s = Ok t /\ version_normalize t = Ok (full_tuple v).
Proof.
  intros U dv v s UO V W. exists (version_tuple v). split.
  - rewrite <- (app_nil_r s). apply (split_written U dv UO v s [] []); auto.
  - eapply normalize_tuple; eauto.
Qed.
Print Assumptions C20_normalize.

(** C20 (order), for versions that differ in a number or are both releases: comparing
    the normalised tuples is comparing the versions number by number.  Missing: see
    [C20_order_refuted]. *)
Theorem C20_order_partial : forall U dv v1 v2 s1 s2 t1 t2 n1 n2, unicode_ok U -> valid U v1 -> valid U v2 ->
  written v1 s1 -> written v2 s2 ->
  version_split U dv s1 = Ok t1 -> version_split U dv s2 = Ok t2 ->
  version_normalize t1 = Ok n1 -> version_normalize t2 = Ok n2 ->
  (nums_cmp (v_nums v1) (v_nums v2) <> Eq -> tuple_cmp n1 n2 = Ok (nums_cmp (v_nums v1) (v_nums v2))) /\
  (v_state v1 = None -> v_state v2 = None -> tuple_cmp n1 n2 = Ok (nums_cmp (v_nums v1) (v_nums v2))).
Proof.
  intros U dv v1 v2 s1 s2 t1 t2 n1 n2 UO V1 V2 W1 W2 S1 S2 N1 N2.
  rewrite (split_written0 U dv UO v1 s1) in S1; auto. rewrite (split_written0 U dv UO v2 s2) in S2; auto.
  okinv S1. okinv S2. rewrite (normalize_tuple U v1 V1) in N1. rewrite (normalize_tuple U v2 V2) in N2. okinv N1. okinv N2.
  assert (L1 := proj1 V1). assert (L2 := proj1 V2).
  unfold full_tuple, full_nums. rewrite tuple_cmp_nums by (rewrite !app_length, !repeat_length; lia).
  rewrite nums_cmp_lex by lia. split.
  - intros NE. destruct (nums_cmp _ _); try reflexivity. congruence.
  - intros -> ->. destruct (nums_cmp _ _); reflexivity.
Qed.
Print Assumptions C20_order_partial.

(** C20 (order), refuted in full: the words are compared alphabetically, so that a
    release candidate sorts after the release, and a development version after a beta. *)
Theorem C20_order_refuted :
  let rc := {| v_nums := [9; 0]; v_state := Some (str "rc", Some 1) |} in
  let final := {| v_nums := [9; 0]; v_state := None |} in
  let dev := {| v_nums := [9; 0]; v_state := Some (str "dev", None) |} in
  let beta := {| v_nums := [9; 0]; v_state := Some (str "beta", Some 1) |} in
  tuple_cmp (full_tuple rc) (full_tuple final) = Ok Gt /\ stage (Some (str "rc")) = Some 5%nat /\ stage None = Some 6%nat /\
  tuple_cmp (full_tuple dev) (full_tuple beta) = Ok Gt /\ stage (Some (str "dev")) = Some 0%nat /\ stage (Some (str "beta")) = Some 4%nat.
Proof. vm_compute. repeat split; reflexivity. Qed.
Print Assumptions C20_order_refuted.

Example C20_ex : let v := {| v_nums := [8; 4; 1]; v_state := Some (str "beta", Some 2) |} in
  valid ascii_unicode v /\ written v (str "8.04.1beta2") /\
  version_split ascii_unicode (fun _ => None) (str " 8.04.1beta2 ") = Ok [VI 8; VI 4; VI 1; VS (str "beta"); VI 2] /\
  version_unsplit [VI 8; VI 4; VI 1; VS (str "beta"); VI 2] = Ok (str "8.4.1beta2").
Proof.
  cbv zeta. split; [|split].
  - split; [cbn; lia|]. split; [repeat constructor; lia|]. cbn. split; [discriminate|]. split; [|lia].
    vm_compute. repeat constructor; intro; discriminate.
  - exists [str "8"; str "04"; str "1"], (str "beta2"). split; [|split; [|reflexivity]].
    + repeat constructor; try discriminate; vm_compute; try (intros; discriminate).
    + exists (str "2"). split; [|reflexivity]. repeat constructor; try discriminate; vm_compute; try (intros; discriminate).
  - split; vm_compute; reflexivity.
Qed.
