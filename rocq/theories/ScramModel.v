(** SCRAM-SHA-256.  Models scram/mod.rs, scram/server.rs, scram/client.rs and the part of
    v5/packet/connect.rs (549-646) that drives the server side.

    HMAC-SHA-256, SHA-256 and PBKDF2-HMAC-SHA-256 (32 bytes) are parameters.  The random
    generator is the list of the samples it gives.  Errors are [None] (the kinds are not
    distinguished); a slice that does not end at a character boundary is a panic. *)
From Coq Require Import List Bool Arith NArith Ascii String.
From Verif Require Import Base TextModel.
Import ListNotations.
Local Open Scope char_scope.

(** mod.rs:16 *)
Definition nonce_length : nat := 24.

(** server.rs:105-111, client.rs:47-52: samples of 33..125, without the comma. *)
Definition nonce_char (x : N) : ascii := byte (if (43 <? x)%N then x + 1 else x).
Definition nonce_of (samples : list N) : text := map nonce_char (firstn nonce_length samples).

(** mod.rs:76-82: byte-wise exclusive or *)
Fixpoint xor (a b : text) : text :=
  match a, b with
  | x :: a', y :: b' => byte (N.lxor (code x) (code y)) :: xor a' b'
  | _, _ => []
  end.

(** server.rs:213-240 [next_field] and [parse_field] *)
Definition next_field (prefix : text) (parts : list text) : option (text * list text) :=
  match parts with
  | p :: r => match after_prefix prefix p with Some v => Some (v, r) | None => None end
  | [] => None
  end.

(** server.rs:20-38 [ScramServer] *)
Record waiting := Waiting {
  w_hash : text; w_nonce : text; w_gs2 : text; w_bare : text; w_first : text;
  w_authcid : text; w_authzid : option text
}.
Inductive server :=
| SNew
| SPassword (authcid : text) (authzid : option text) (client_nonce : text)
| SFinal (w : waiting)
| SDone.
(** server.rs:13-18 *)
Inductive status := Authenticated | NotAuthenticated | NotAuthorized.

(** client.rs:14-31 [ScramClient] *)
Inductive client :=
| CNew (gs2 password nonce authcid : text)
| CFirst (gs2 password nonce bare : text)
| CFinal (signature : text)
| CDone.

(** server.rs:114-117, client.rs:43-46 *)
Definition gs2_header (authzid : option text) : text :=
  match authzid with Some az => (lit "n,a=" ++ az ++ lit ",")%list | None => lit "n,," end.

Section Scram.
  Variable hmac : text -> text -> text.                        (* key, message *)
  Variable sha256 : text -> text.
  Variable pbkdf2 : N -> text -> text -> text.                 (* iterations, salt, password *)

  (** mod.rs:50-90 [find_proofs]: client proof and server signature. *)
  Definition find_proofs (gs2 bare server_first salted nonce : text) : text * text :=
    let without_proof := (lit "c=" ++ b64_encode true gs2 ++ lit ",r=" ++ nonce)%list in
    let auth_message := (bare ++ lit "," ++ server_first ++ lit "," ++ without_proof)%list in
    let client_key := hmac salted (lit "Client Key") in
    let server_key := hmac salted (lit "Server Key") in
    let stored_key := sha256 client_key in
    let client_signature := hmac stored_key auth_message in
    let server_signature := hmac server_key auth_message in
    (xor client_key client_signature, server_signature).

  (** server.rs:45-74 *)
  Definition decode_client_first (data : text) : option server :=
    match split "," data with
    | token :: parts =>
        if text_eqb token (lit "n") || text_eqb token (lit "y") then
          match parts with
          | [] => None
          | p :: parts1 =>
              let az := match p with
                        | [] => Some None
                        | _ => match after_prefix (lit "a=") p with Some z => Some (Some z) | None => None end
                        end in
              match az with
              | None => None
              | Some authzid =>
                  match next_field (lit "n=") parts1 with
                  | None => None
                  | Some (authcid, parts2) =>
                      match next_field (lit "r=") parts2 with
                      | None => None
                      | Some (nonce, _) => Some (SPassword authcid authzid nonce)
                      end
                  end
              end
          end
        else None
    | [] => None
    end.

  (** server.rs:92-139 *)
  Definition encode_server_first (hash salt : text) (iterations : N) (samples : list N) (m : server) : option (server * text) :=
    match m with
    | SPassword authcid authzid client_nonce =>
        let nonce := (client_nonce ++ nonce_of samples)%list in
        let bare := (lit "n=" ++ authcid ++ lit ",r=" ++ client_nonce)%list in
        let first := (lit "r=" ++ nonce ++ lit ",s=" ++ b64_encode true salt ++ lit ",i=" ++ show iterations)%list in
        Some (SFinal (Waiting hash nonce (gs2_header authzid) bare first authcid authzid), first)
    | _ => None
    end.

  (** server.rs:242-248 *)
  Definition parse_client_final (data : text) : option (text * text * text) :=
    match next_field (lit "c=") (split "," data) with
    | None => None
    | Some (gs2, r1) =>
        match next_field (lit "r=") r1 with
        | None => None
        | Some (nonce, r2) =>
            match next_field (lit "p=") r2 with
            | None => None
            | Some (proof, _) => Some (gs2, nonce, proof)
            end
        end
    end.

  Definition opt_text_eqb (a : text) (b : option text) : bool := match b with Some z => text_eqb a z | None => true end.

  (** server.rs:141-211: the state afterwards and the result. *)
  Definition decode_client_final (m : server) (data : text) : server * option (status * text) :=
    match m with
    | SFinal w =>
        (SDone,
         match parse_client_final data with
         | None => None
         | Some (gs2_enc, nonce, proof) =>
             if negb (text_eqb (b64_encode true (w_gs2 w)) gs2_enc) then None
             else if negb (text_eqb nonce (w_nonce w)) then None
             else
               let '(client_proof, signature) := find_proofs (w_gs2 w) (w_bare w) (w_first w) (w_hash w) (w_nonce w) in
               match b64_decode true proof with
               | None => None
               | Some bytes =>
                   if negb (text_eqb bytes client_proof) then Some (NotAuthenticated, lit "e=Invalid Password")
                   else if negb (opt_text_eqb (w_authcid w) (w_authzid w))
                   then Some (NotAuthorized, (lit "e=User '" ++ w_authcid w ++ lit "' not authorized to act as '" ++
                                              match w_authzid w with Some z => z | None => [] end ++ lit "'")%list)
                   else Some (Authenticated, (lit "v=" ++ b64_encode true signature)%list)
               end
         end)
    | _ => (m, None)
    end.

  (** client.rs:34-60 *)
  Definition client_new (authcid password : text) (authzid : option text) (samples : list N) : client :=
    CNew (gs2_header authzid) password (nonce_of samples) authcid.

  (** client.rs:78-82: the test is the wrong way round, so that a name with a comma or an
      equals sign is sent as it is; any other name has nothing to replace. *)
  Fixpoint replace (c : ascii) (by_ : text) (s : text) : text :=
    match s with [] => [] | x :: r => if Ascii.eqb x c then (by_ ++ replace c by_ r)%list else x :: replace c by_ r end.
  Definition client_name (authcid : text) : text :=
    if existsb (fun c => Ascii.eqb c "," || Ascii.eqb c "=") authcid then authcid
    else replace "=" (lit "=3D") (replace "," (lit "=2C") authcid).

  (** client.rs:62-93 *)
  Definition encode_client_first (m : client) : client * option text :=
    match m with
    | CNew gs2 password nonce authcid =>
        let bare := (lit "n=" ++ client_name authcid ++ lit ",r=" ++ nonce)%list in
        (CFirst gs2 password nonce bare, Some (gs2 ++ bare)%list)
    | _ => (m, None)
    end.

  (** client.rs:153-178; the iteration count is a NonZeroU32. *)
  Definition parse_server_first (data : text) : option (text * text * N) :=
    if Nat.ltb (List.length data) 2 then None
    else
      let parts := split "," data in
      match parts with
      | p :: _ =>
          match after_prefix (lit "m=") p with
          | Some _ => None
          | None =>
              match next_field (lit "r=") parts with
              | None => None
              | Some (nonce, r1) =>
                  match next_field (lit "s=") r1 with
                  | None => None
                  | Some (s, r2) =>
                      match b64_decode true s with
                      | None => None
                      | Some salt =>
                          match next_field (lit "i=") r2 with
                          | None => None
                          | Some (i, _) =>
                              match parse_u32 i with
                              | Some n => if (n =? 0)%N then None else Some (nonce, salt, n)
                              | None => None
                              end
                          end
                      end
                  end
              end
          end
      | [] => None
      end.

  (** client.rs:95-134 *)
  Definition decode_server_first (m : client) (data : text) : client * option text :=
    match m with
    | CFirst gs2 password client_nonce bare =>
        match parse_server_first data with
        | None => (CDone, None)
        | Some (nonce, salt, iterations) =>
            match after_prefix client_nonce nonce with
            | None => (CDone, None)
            | Some _ =>
                let '(proof, signature) := find_proofs gs2 bare data (pbkdf2 iterations salt password) nonce in
                (CFinal signature,
                 Some (lit "c=" ++ b64_encode true gs2 ++ lit ",r=" ++ nonce ++ lit ",p=" ++ b64_encode true proof)%list)
            end
        end
    | _ => (m, None)
    end.

  (** client.rs:136-151 and 180-190.  [data[..2]] panics if a character goes over the
      second byte. *)
  Inductive cresult := CAccept | CReject | CPanic.
  Definition decode_server_final (m : client) (data : text) : client * cresult :=
    match m with
    | CFinal signature =>
        (CDone,
         match data with
         | a :: b :: r =>
             if match r with c :: _ => cont c | [] => false end then CPanic
             else match after_prefix (lit "v=") data with
                  | Some v => match b64_decode true v with
                              | Some s => if text_eqb signature s then CAccept else CReject
                              | None => CReject
                              end
                  | None => CReject
                  end
         | _ => CReject
         end)
    | _ => (m, CReject)
    end.

  (** config.rs [ScramPasswordInfo] *)
  Record scram_user := ScramUser { su_hash : text; su_iterations : N; su_salt : text }.

  (** connect.rs:549-646 [scram_client_first] from the point where the data is text: the
      machine waiting for the final message, and server-first. *)
  Definition serve_first (users : list (text * scram_user)) (samples : list N) (data : text) : option (waiting * text) :=
    match decode_client_first data with
    | Some (SPassword authcid authzid nonce as m) =>
        match aget authcid users with
        | None => None
        | Some u => match encode_server_first (su_hash u) (su_salt u) (su_iterations u) samples m with
                    | Some (SFinal w, first) => Some (w, first)
                    | _ => None
                    end
        end
    | _ => None
    end.
  (** connect.rs:434-480: the final message. *)
  Definition serve_final (w : waiting) (data : text) : option (bool * text) :=
    match snd (decode_client_final (SFinal w) data) with
    | Some (Authenticated, msg) => Some (true, msg)
    | Some (_, msg) => Some (false, msg)
    | None => None
    end.
End Scram.
