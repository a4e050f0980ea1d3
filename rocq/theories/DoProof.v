(** DoProof.v *)
From Verif Require Import Base BaseProof PBufferModel PBufferSpec Element3Model PyStr RegexModel StrModel StrSpec StrProof DoModel DoSpec.

Lemma is_do_sql l s : is_do (do_sql l s) s l.
Proof.
  exists (quote_literal s ++ str " LANGUAGE " ++ quote_ident l ++ str ";"), (quote_ident l ++ str ";").
  split; [reflexivity|]. split.
  - apply quote_literal_lexed. intros r. vm_compute. discriminate.
  - apply quote_ident_lexed. intros r. vm_compute. discriminate.
Qed.

Lemma is_do_det sql s l s' l' : is_do sql s l -> is_do sql s' l' -> s = s' /\ l = l'.
Proof.
  intros (r1 & r2 & E & Q & R) (r1' & r2' & E' & Q' & R').
  rewrite E in E'. apply app_inv_head in E'. subst r1'.
  destruct (quoted_det _ _ _ _ _ _ Q Q') as [-> E2]. apply app_inv_head in E2. subst r2'.
  destruct (quoted_det _ _ _ _ _ _ R R') as [-> _]. auto.
Qed.

Lemma execute_bytes_spec enc q w : execute_bytes enc q = Ok w ->
  exists d, enc q = Ok d /\ w = query_packet (d ++ [0]) /\ len d + 5 < 2 ^ 32.
Proof.
  unfold execute_bytes, execute_messages. destruct (enc q) as [d|e] eqn:E; [|discriminate]. cbn [bind mapM].
  unfold message_bytes. cbn [serialize bind type_of kind_of].
  destruct (pack_u 4 (len (d ++ [0]) + 4)) as [l|e] eqn:G; cbn [bind]; [|discriminate].
  intros X. exists d. split; [reflexivity|].
  assert (X' : w = concat [81 :: l ++ d ++ [0]]) by congruence.
  unfold pack_u in G. destruct ((0 <=? len (d ++ [0]) + 4) && (len (d ++ [0]) + 4 <? 256 ^ Z.of_nat 4)) eqn:B; [|discriminate].
  assert (L : l = be 4 (len (d ++ [0]) + 4)) by congruence. split.
  - rewrite X', L. unfold query_packet. cbn [concat]. rewrite app_nil_r. reflexivity.
  - apply andb_true_iff in B as [_ B]. apply Z.ltb_lt in B. rewrite len_app in B. change (len [0]) with 1 in B.
    change (256 ^ Z.of_nat 4) with (2 ^ 32) in B. lia.
Qed.

Lemma packet_inj a b : query_packet a = query_packet b -> a = b.
Proof.
  unfold query_packet. intros E.
  assert (L : length (be 4 (len a + 4)) = length (be 4 (len b + 4))) by reflexivity.
  assert (E' : be 4 (len a + 4) ++ a = be 4 (len b + 4) ++ b) by congruence.
  apply (f_equal (skipn (length (be 4 (len a + 4))))) in E'.
  rewrite skipn_app, skipn_all, Nat.sub_diag in E'. rewrite L in E'.
  rewrite skipn_app, skipn_all, Nat.sub_diag in E'. exact E'.
Qed.

Lemma cstring_det b t a t' a' : cstring b t a -> cstring b t' a' -> t = t' /\ a = a'.
Proof.
  intros [N E] [N' E']. subst b. revert t' N' E'. induction t as [|c t IH]; intros [|c' t'] N' E'; cbn in E'.
  - split; congruence.
  - exfalso. apply N'. left. congruence.
  - exfalso. apply N. left. congruence.
  - assert (c = c') by congruence. subst c'. destruct (IH (fun h => N (or_intror h)) t' (fun h => N' (or_intror h))) as [-> ->]; [congruence|auto].
Qed.

Lemma server_gets_det dec w q q' : server_gets dec w q -> server_gets dec w q' -> q = q'.
Proof.
  intros (b & t & E & C & D) (b' & t' & E' & C' & D'). rewrite E in E'. apply packet_inj in E'. subst b'.
  destruct (cstring_det _ _ _ _ _ C C') as [-> _]. congruence.
Qed.

Lemma execute_gets enc dec q w d : execute_bytes enc q = Ok w -> enc q = Ok d -> ~ In 0 d -> dec d = Some q ->
  server_gets dec w q.
Proof.
  intros E Q N D. destruct (execute_bytes_spec _ _ _ E) as (d' & Q' & -> & _).
  assert (d' = d) by congruence. subst d'. exists (d ++ [0]), d. split; [reflexivity|]. split; [split; [exact N|reflexivity]|exact D].
Qed.

Lemma execute_cut enc dec q w d a b : execute_bytes enc q = Ok w -> enc q = Ok d -> d = a ++ 0 :: b ->
  forall q', ~ server_gets dec w q'.
Proof.
  intros E Q C q' (body & t & P & [N K] & _). destruct (execute_bytes_spec _ _ _ E) as (d' & Q' & -> & _).
  assert (d' = d) by congruence. subst d'. apply packet_inj in P. subst body. apply app_inj_tail in K as [K _].
  subst t. apply N. rewrite C. apply in_or_app. right. left. reflexivity.
Qed.

Lemma execute_total enc q d : enc q = Ok d -> len d + 5 < 2 ^ 32 -> exists w, execute_bytes enc q = Ok w.
Proof.
  intros Q L. unfold execute_bytes, execute_messages. rewrite Q. cbn [bind mapM].
  unfold message_bytes. cbn [serialize bind type_of kind_of].
  rewrite pack_u_ok; [cbn [bind]; eauto|]. rewrite len_app. change (len [0]) with 1. change (256 ^ Z.of_nat 4) with (2 ^ 32).
  pose proof (len_nonneg d). lia.
Qed.
