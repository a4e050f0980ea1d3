(** NegSpec.v: what negotiation may do, as the trace of messages sent and received. *)
From Verif Require Import Base PBufferModel Element3Model NegModel.

Inductive event := Out (m : message) | In (x : wmsg).

(** Every way of driving a negotiation: send what it wants sent when it is sending,
    give it any batch of messages when it is receiving (it says how many it took). *)
Inductive nrun (md5hex : bytes -> bytes) (crypt : bytes -> bytes -> bytes) (startup : list (bytes * bytes)) (pw : bytes)
  : neg -> list event -> Prop :=
| nr_init : nrun md5hex crypt startup pw (neg_init startup pw) []
| nr_send n tr : nrun md5hex crypt startup pw n tr -> n_state n = Sending ->
    nrun md5hex crypt startup pw (neg_sent n) (tr ++ map Out (n_messages n))
| nr_put n tr id l n' c : nrun md5hex crypt startup pw n tr -> n_state n = Receiving ->
    neg_put md5hex crypt n id l = Ok (n', c) ->
    nrun md5hex crypt startup pw n' (tr ++ map In (firstn (Z.to_nat c) l)).

(** notices, notifications and parameter status *)
Definition is_async (x : wmsg) : Prop := fst x = 78 \/ fst x = 65 \/ fst x = 83.
Definition is_asyncb (x : wmsg) : bool := (fst x =? 78) || (fst x =? 65) || (fst x =? 83).
(** the body of an authentication request: a four byte code and its argument *)
Definition auth_body (body : bytes) (req : Z) (salt : bytes) : Prop :=
  exists code, length code = 4%nat /\ body = code ++ salt /\ unbe code = req.
(** what PostgreSQL expects as the password message for a request *)
Definition reply (md5hex : bytes -> bytes) (crypt : bytes -> bytes -> bytes) (startup : list (bytes * bytes)) (pw : bytes)
  (req : Z) (salt answer : bytes) : Prop :=
  (req = 3 /\ answer = pw) \/ (req = 4 /\ answer = crypt pw salt) \/
  (req = 5 /\ exists user, assoc user_key startup = Some user /\
     answer = [109; 100; 53] ++ md5hex (md5hex (pw ++ user) ++ salt)).

Fixpoint outs (tr : list event) : list message :=
  match tr with [] => [] | Out m :: r => m :: outs r | In _ :: r => outs r end.
(** the messages received which are not asynchronous *)
Fixpoint ins (tr : list event) : list wmsg :=
  match tr with [] => [] | In x :: r => if is_asyncb x then ins r else x :: ins r | Out _ :: r => ins r end.
Fixpoint asyncs (tr : list event) : list wmsg :=
  match tr with [] => [] | In x :: r => if is_asyncb x then x :: asyncs r else asyncs r | Out _ :: r => asyncs r end.

(** the conversation that authenticates: either the server is satisfied at once, or it
    asks for the password, gets it, and then sends [ok] with the code 0 *)
Definition auth_part (l : list wmsg) : Prop :=
  (exists body salt, l = [(82, body)] /\ auth_body body 0 salt) \/
  (exists body req salt t body2 salt2, l = [(82, body); (t, body2)] /\
     auth_body body req salt /\ (req = 3 \/ req = 4 \/ req = 5) /\ auth_body body2 0 salt2).

(** the message an asynchronous message stands for: NOTICE, NOTIFY, ParameterStatus *)
Definition async_is (x : wmsg) (m : message) : Prop :=
  (fst x = 78 /\ parse (KNotice false) (snd x) = Ok m) \/ (fst x = 65 /\ parse KNotify (snd x) = Ok m) \/
  (fst x = 83 /\ parse KShowOption (snd x) = Ok m).
