(** What RFC 5802 says about the messages, independently of how they are parsed. *)
From Coq Require Import List Bool Arith NArith Ascii String.
From Verif Require Import Base TextModel TextSpec ScramModel.
Import ListNotations.
Local Open Scope char_scope.

(** Everything after a field that is not read. *)
Definition extension (e : text) : Prop := e = [] \/ exists r, e = "," :: r.

(** client-first: flag, authorization identity, name and nonce. *)
Definition first_message (data flag : text) (authzid : option text) (name nonce : text) : Prop :=
  exists ext, extension ext /\ ~ In "," name /\ ~ In "," nonce /\
    match authzid with Some z => ~ In "," z | None => True end /\
    data = (flag ++ "," :: match authzid with Some z => lit "a=" ++ z | None => [] end ++ "," ::
            (lit "n=" ++ name ++ lit ",r=" ++ nonce) ++ ext)%list.

(** RFC 5802 section 5.1: a name in a message has its comma and equals sign escaped. *)
Fixpoint saslname (s : text) : text :=
  match s with
  | [] => []
  | x :: r => (if Ascii.eqb x "," then lit "=2C" else if Ascii.eqb x "=" then lit "=3D" else [x]) ++ saslname r
  end%list.

Section Rfc.
  Variable hmac : text -> text -> text.
  Variable sha256 : text -> text.
  (** section 3: AuthMessage, ClientProof, ServerSignature. *)
  Definition auth_message (first_bare server_first gs2 nonce : text) : text :=
    (first_bare ++ "," :: server_first ++ "," :: lit "c=" ++ b64_encode true gs2 ++ lit ",r=" ++ nonce)%list.
  Definition rfc_proof (salted msg : text) : text :=
    let client_key := hmac salted (lit "Client Key") in xor_text client_key (hmac (sha256 client_key) msg).
  Definition rfc_signature (salted msg : text) : text := hmac (hmac salted (lit "Server Key")) msg.
End Rfc.
