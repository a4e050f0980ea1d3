(** FetchProof5.v: MultiXactStream *)
From Verif Require Import Base BaseProof PBufferModel PBufferProof Element3Model NegModel InstModel FetchModel FetchSpec.

Section S.
  Context {R : Type} (cs : Z) (rp : nat -> reply R) (rows : list R) (Cs : 0 < cs) (H : cursor_replies cs rp rows).
  Notation n := (Z.to_nat cs).
  (** the first [i] requests were consumed *)
  Definition sinv (m : mstream) (out : list (list R)) : Prop :=
    Forall (fun c => c <> [] /\ len c <= cs) out /\
    match m_x m with
    | Some i => m_pushed m = S i /\ concat out = firstn (i * n) rows /\ Forall (fun c => len c = cs) out
    | None => concat out = rows /\ exists a b, out = a ++ b /\ Forall (fun c => len c = cs) a /\ (length b <= 1)%nat
    end.

  Lemma chunk_next i : firstn (i * n) rows ++ rp_rows (rp i) = firstn (S i * n) rows.
  Proof. rewrite H. cbn [rp_rows]. replace (S i * n)%nat with (i * n + n)%nat by lia. now rewrite firstn_plus. Qed.
  Lemma sinv_next m out m' r : sinv m out -> stream_next cs rp m = (m', r) ->
    match r with
    | FDone (Some c) => sinv m' (out ++ [c])
    | FDone None => sinv m' out /\ m_x m' = None
    | _ => False
    end.
  Proof.
    intros (F & I) E. unfold stream_next in E. destruct (m_x m) as [i|] eqn:Ex.
    2:{ injection E as <- <-. unfold sinv. rewrite Ex. auto. }
    destruct I as (P & C & A). assert (Hr : rp_failed (rp i) = false) by (rewrite H; reflexivity). rewrite Hr, andb_false_r in E.
    pose proof (chunk_next i) as Q. rewrite <- C in Q.
    assert (Lc : (length (rp_rows (rp i)) <= n)%nat) by (rewrite H; cbn [rp_rows]; apply firstn_le_length).
    destruct (Z.eqb_spec (len (rp_rows (rp i))) cs) as [El|El].
    - injection E as <- <-. assert (El' := El). set (c := rp_rows (rp i)) in *. clearbody c. split.
      + apply Forall_app. split; auto. constructor; auto. split; [intros ->; unfold len in El; cbn in El; lia|lia].
      + cbn [m_x m_pushed]. rewrite P. split; auto. rewrite concat_app. cbn [concat]. rewrite app_nil_r, <- Q. split; auto. apply Forall_app; auto.
    - (* the last chunk *)
      assert (All : concat out ++ rp_rows (rp i) = rows).
      { rewrite Q. apply firstn_all2. rewrite H in El. cbn [rp_rows] in El. unfold len in El. rewrite firstn_length, skipn_length in El. lia. }
      destruct (rp_rows (rp i)) as [|c0 ch] eqn:Ec; injection E as <- <-.
      + rewrite app_nil_r in All. split; auto. split; auto. cbn [m_x]. split; auto. exists out, []. rewrite app_nil_r. cbn. auto.
      + split; [apply Forall_app; split; auto; constructor; auto; split; [discriminate|unfold len in *; cbn [length] in *; lia]|].
        cbn [m_x]. rewrite concat_app. cbn [concat]. rewrite app_nil_r. split; auto. exists out, [c0 :: ch]. cbn. auto.
  Qed.
  Lemma sinv_init : sinv stream_init [].
  Proof. split; [constructor|]. cbn. auto. Qed.
  Lemma sinv_run m out : stream_run cs rp m out -> sinv m out.
  Proof.
    induction 1 as [|m out m' c H1 IH E|m out m' r H1 IH E N|m out m' r H1 IH E].
    - apply sinv_init.
    - exact (sinv_next _ _ _ _ IH E).
    - pose proof (sinv_next _ _ _ _ IH E) as Q. destruct r as [[c|]| | |]; try contradiction; [|apply Q]. destruct (N c eq_refl).
    - unfold stream_other in E. destruct IH as (F & I). destruct (m_x m) as [i|] eqn:Ex.
      + destruct (m_current m); injection E as <- <-; (split; [exact F|]); cbn [m_x m_pushed]; rewrite ?Ex; exact I.
      + injection E as <- <-. split; auto. rewrite Ex. exact I.
  Qed.
  (** it ends *)
  Lemma stream_ends k : forall m out, sinv m out -> (length rows < k + length (concat out))%nat -> (0 < k)%nat ->
    stream_drain (S k) cs rp m (concat out) = FDone rows.
  Proof.
    assert (Lim : forall m out, sinv m out -> (length (concat out) <= length rows)%nat).
    { intros m out (_ & I). destruct (m_x m); [destruct I as (_ & -> & _); rewrite firstn_length; lia|destruct I as (-> & _); lia]. }
    induction k as [|k IH]; intros m out I L K; [lia|]. cbn [stream_drain].
    destruct (stream_next cs rp m) as [m' r] eqn:E. pose proof (sinv_next _ _ _ _ I E) as Q. destruct r as [[c|]| | |]; try contradiction.
    - assert (Ec : concat out ++ c = concat (out ++ [c])) by (rewrite concat_app; cbn; now rewrite app_nil_r). rewrite Ec.
      assert (Hc : c <> []) by (destruct Q as (Q & _); apply Forall_app in Q as (_ & Q); inversion Q; tauto).
      assert (Lc : (0 < length c)%nat) by (destruct c; [congruence|cbn; lia]).
      pose proof (Lim _ _ Q) as L2. rewrite concat_app, app_length in L2. cbn [concat] in L2. rewrite app_nil_r in L2.
      assert (K' : (0 < k)%nat) by lia.
      specialize (IH m' (out ++ [c]) Q). rewrite concat_app, app_length in IH. cbn [concat] in IH. rewrite app_nil_r in IH. rewrite concat_app. cbn [concat]. rewrite app_nil_r.
      apply IH; [lia|exact K'].
    - destruct Q as ((_ & Q) & Ex). rewrite Ex in Q. destruct Q as (-> & _). reflexivity.
  Qed.
End S.
