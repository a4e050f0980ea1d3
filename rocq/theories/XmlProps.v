(** XmlProps.v: C87, XML values *)
From Verif Require Import Base BaseProof PyStr PyStrProof PyDict PyDictProof XmlModel XmlSpec XmlProof.
Open Scope Z_scope.

(** the codec: every text of scalar values is encoded as the Unicode standard says and read back; the decoder accepts exactly that *)
Theorem C87_utf8 : forall t, Forall scalar t -> exists b, utf8_encode t = Ok b /\ utf8_text t b /\ utf8_decode b = Ok t.
Proof. intros t F. destruct (utf8_encode_ok t F) as (b & E & T). exists b. split; [exact E|]. split; [exact T|apply utf8_decode_text, T]. Qed.
Print Assumptions C87_utf8.
Theorem C87_utf8_strict : forall b t, Forall (fun x => 0 <= x < 256) b -> (utf8_decode b = Ok t <-> utf8_text t b).
Proof. intros b t F. split; [intros E; exact (utf8_decode_inv (length b) b t (le_n _) F E)|apply utf8_decode_text]. Qed.
Print Assumptions C87_utf8_strict.

Section xml.
Context {elem : Type} (tostring : elem -> text) (XML : text -> option elem) (children : elem -> list elem)
        (encode : text -> res (list Z)) (decode : list Z -> res text).

Lemma items_bytes l ts : Forall2 (item_text tostring) l ts -> Forall (Forall scalar) ts ->
  exists bs, mapM (item_bytes tostring) l = Ok bs /\ utf8_encode (concat ts) = Ok (concat bs).
Proof.
  induction 1 as [|x t l ts X F IH]; intros S; [exists []; split; reflexivity|]. inversion S as [|? ? S1 S2]; subst. destruct (IH S2) as (bs & E1 & E2). destruct (utf8_encode_ok t S1) as (b & E3 & _).
  exists (b :: bs). split.
  - cbn [mapM]. replace (item_bytes tostring x) with (@Ok (list Z) b); [cbn [bind]; rewrite E1; reflexivity|]. destruct X; symmetry; exact E3.
  - cbn [concat]. rewrite utf8_encode_app, E3. cbn [bind]. rewrite E2. reflexivity.
Qed.
Lemma recode_text encoding T b : codec_of_name encoding encode -> utf8_encode T = Ok b -> Forall scalar T -> recode encode encoding b = encode T.
Proof.
  intros C E S. unfold recode. destruct (utf8_encode_ok T S) as (b' & E' & T'). assert (b' = b) by congruence. subst b'.
  destruct (seqb_spec encoding (str "utf8")) as [X|N1]; cbn [orb]; [rewrite C, E by auto; reflexivity|]. destruct (seqb_spec encoding (str "utf-8")) as [X|N2]; [rewrite C, E by auto; reflexivity|].
  rewrite (utf8_decode_text _ _ T'). reflexivity.
Qed.
(** a str, an element or a tuple of both is sent as what the session's codec makes of its XML text: the str itself, the
    serialization, the items one after the other.  So nothing is sent if a character has no code in the session's encoding *)
Theorem C87_sent : forall encoding v T, codec_of_name encoding encode -> value_text tostring v T ->
  Forall scalar T \/ (exists t, v = VStr t) -> xml_io_pack tostring encode encoding v = encode T.
Proof.
  intros encoding v T C V S. destruct V as [t|e|l ts F]; [reflexivity| |]; (destruct S as [S|(t & Et)]; [|discriminate]).
  - unfold xml_io_pack, xml_pack, tostr. destruct (utf8_encode_ok _ S) as (b & E & _). rewrite E. cbn [bind]. apply recode_text; assumption.
  - unfold xml_io_pack, xml_pack. assert (S' : Forall (Forall scalar) ts). { apply Forall_forall. intros t I. apply Forall_forall. intros c J. rewrite Forall_forall in S. apply S. apply in_concat. exists t. auto. }
    destruct (items_bytes l ts F S') as (bs & -> & E). cbn [bind]. apply recode_text; assumption.
Qed.
(** bytes are sent as they are *)
Theorem C87_sent_bytes : forall encoding b, xml_io_pack tostring encode encoding (VBytes b) = Ok b.
Proof. reflexivity. Qed.
(** anything else, alone or in a tuple behind items that can be encoded, raises AttributeError: bytes and ElementTree objects in a
    tuple are such others, and so is an ElementTree alone, though it is the type the driver announces for xml columns *)
Theorem C87_sent_other : forall encoding, xml_io_pack tostring encode encoding VOther = Err AttributeError /\
  forall l ts r, Forall2 (item_text tostring) l ts -> Forall (Forall scalar) ts -> xml_io_pack tostring encode encoding (VTuple (l ++ IOther :: r)) = Err AttributeError.
Proof.
  intros encoding. split; [reflexivity|]. intros l ts r F S. destruct (items_bytes l ts F S) as (bs & E & _). unfold xml_io_pack, xml_pack. rewrite mapM_app, E. reflexivity.
Qed.

(** received: a well-formed document is its root element; anything else is the sequence of the elements of the content; what is not
    the content of an element either is an error; so is data which is not in the session's encoding *)
Theorem C87_received : forall d,
  (forall t e, decode d = Ok t -> XML t = Some e -> xml_io_unpack XML children decode d = Ok (RElem e)) /\
  (forall t w, decode d = Ok t -> XML t = None -> XML (str "<x>" ++ t ++ str "</x>") = Some w -> xml_io_unpack XML children decode d = Ok (RTuple (children w))) /\
  (forall t, decode d = Ok t -> XML t = None -> XML (str "<x>" ++ t ++ str "</x>") = None -> xml_io_unpack XML children decode d = Err ValueError) /\
  (forall e, decode d = Err e -> xml_io_unpack XML children decode d = Err e).
Proof.
  intros d. unfold xml_io_unpack, xml_unpack. split; [|split; [|split]].
  - intros t e -> X. cbn [bind]. rewrite X. reflexivity.
  - intros t w -> X Y. cbn [bind]. rewrite X, Y. reflexivity.
  - intros t -> X Y. cbn [bind]. rewrite X, Y. reflexivity.
  - intros e ->. reflexivity.
Qed.
(** round trip, of an element without a tail and of several elements, if the parser reads what the serializer writes *)
Theorem C87_roundtrip_element : forall encoding e b, codec_of_name encoding encode -> Forall scalar (tostring e) -> XML (tostring e) = Some e ->
  (forall t b, encode t = Ok b -> decode b = Ok t) ->
  xml_io_pack tostring encode encoding (VElem e) = Ok b -> xml_io_unpack XML children decode b = Ok (RElem e).
Proof.
  intros encoding e b C S X D E. rewrite (C87_sent encoding (VElem e) (tostring e) C ltac:(constructor) (or_introl S)) in E. eapply (proj1 (C87_received b)); eauto.
Qed.
Theorem C87_roundtrip_elements : forall encoding l w b, codec_of_name encoding encode -> Forall scalar (concat (map tostring l)) ->
  XML (concat (map tostring l)) = None -> XML (str "<x>" ++ concat (map tostring l) ++ str "</x>") = Some w -> children w = l ->
  (forall t b, encode t = Ok b -> decode b = Ok t) ->
  xml_io_pack tostring encode encoding (VTuple (map IElem l)) = Ok b -> xml_io_unpack XML children decode b = Ok (RTuple l).
Proof.
  intros encoding l w b C S X Y K D E.
  assert (V : value_text tostring (VTuple (map IElem l)) (concat (map tostring l))).
  { constructor. clear. induction l as [|e l IH]; cbn [map]; constructor; [constructor|exact IH]. }
  rewrite (C87_sent encoding _ _ C V (or_introl S)) in E. rewrite <- K. eapply (proj1 (proj2 (C87_received b))); eauto.
Qed.
End xml.
Print Assumptions C87_sent.
Print Assumptions C87_sent_bytes.
Print Assumptions C87_sent_other.
Print Assumptions C87_received.
Print Assumptions C87_roundtrip_element.
Print Assumptions C87_roundtrip_elements.

(** a small library: elements without content, written <c/>, where x may contain others; text is skipped *)
Inductive toy := Toy (c : Z) (l : list toy).
Definition toy_string (e : toy) : text := match e with Toy c _ => [60; c; 47; 62] end.
Fixpoint toy_items (t : text) : list toy :=
  match t with
  | [] => []
  | a :: r => match r with
              | c :: 47 :: 62 :: _ => if a =? 60 then Toy c [] :: toy_items r else toy_items r
              | _ => toy_items r
              end
  end.
Definition toy_XML (t : text) : option toy :=
  match t with
  | [60; c; 47; 62] => Some (Toy c [])
  | _ => if prefixb (str "<x>") t then Some (Toy 120 (toy_items (skipn 3 t))) else None
  end.
Definition toy_children (e : toy) : list toy := match e with Toy _ l => l end.
(** latin-1 *)
Definition latin1_encode (t : text) : res (list Z) := if forallb (fun c => c <? 256) t then Ok t else Err ValueError.
Definition latin1_decode (b : list Z) : res text := Ok b.

(** an element and a text with an accent, in a latin-1 session and in a UTF-8 session *)
Example C87_ex : xml_io_pack toy_string latin1_encode (str "latin1") (VTuple [IElem (Toy 97 []); IStr [233]]) = Ok (str "<a/>" ++ [233]) /\
  xml_io_pack toy_string utf8_encode (str "utf8") (VTuple [IElem (Toy 97 []); IStr [233]]) = Ok (str "<a/>" ++ [195; 169]) /\
  xml_io_pack toy_string latin1_encode (str "latin1") (VTuple [IElem (Toy 97 []); IStr [8364]]) = Err ValueError.
Proof. split; [|split]; vm_compute; reflexivity. Qed.
Example C87_ex_name : codec_of_name (str "latin1") latin1_encode /\ codec_of_name (str "utf8") utf8_encode.
Proof. split; [intros [E|E]; discriminate|intros _ t; reflexivity]. Qed.
Example C87_ex_elements : let l := [Toy 97 []; Toy 98 []] in
  toy_XML (concat (map toy_string l)) = None /\ (exists w, toy_XML (str "<x>" ++ concat (map toy_string l) ++ str "</x>") = Some w /\ toy_children w = l) /\ Forall scalar (concat (map toy_string l)).
Proof. cbn zeta. split; [reflexivity|]. split; [eexists; split; reflexivity|]. repeat constructor; cbn; lia. Qed.
Example C87_ex_utf8 : utf8_encode [97; 233; 8364; 128512] = Ok [97; 195; 169; 226; 130; 172; 240; 159; 152; 128] /\ utf8_encode [55296] = Err ValueError /\ utf8_decode [192; 128] = Err ValueError.
Proof. split; [|split]; vm_compute; reflexivity. Qed.
(** refuted: an XML value comes back as it was sent.  A tuple of one element comes back as the element; a text is lost *)
Theorem C87_roundtrip_refuted :
  (exists b, xml_io_pack toy_string utf8_encode (str "utf8") (VTuple [IElem (Toy 97 [])]) = Ok b /\ xml_io_unpack toy_XML toy_children utf8_decode b = Ok (RElem (Toy 97 []))) /\
  (exists b, xml_io_pack toy_string utf8_encode (str "utf8") (VTuple [IStr (str "hello "); IElem (Toy 97 [])]) = Ok b /\ xml_io_unpack toy_XML toy_children utf8_decode b = Ok (RTuple [Toy 97 []])) /\
  (exists b, xml_io_pack toy_string utf8_encode (str "utf8") (VStr (str "hello")) = Ok b /\ xml_io_unpack toy_XML toy_children utf8_decode b = Ok (RTuple [])).
Proof. split; [|split]; eexists; split; vm_compute; reflexivity. Qed.
Print Assumptions C87_roundtrip_refuted.
