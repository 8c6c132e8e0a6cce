(* U2F raw messages as the FIDO specifications describe them, independently of u2f/u2f.go. *)
From Verif Require Import Base M_Cbor S_Cbor M_Crypto M_Cose M_Client M_U2f.

(* ISO 7816-4 command APDUs in extended length encoding, cases 1, 2E, 3E and 4E. *)
Inductive apdu (cla ins p1 p2 : N) : bytes -> N -> bytes -> Prop :=
| Apdu1 : apdu cla ins p1 p2 [] 0 [cla; ins; p1; p2]
| Apdu2 le : le < 65536 -> apdu cla ins p1 p2 [] le ([cla; ins; p1; p2] ++ [0] ++ be 2 le)
| Apdu3 data : 0 < len data < 65536 ->
    apdu cla ins p1 p2 data 0 ([cla; ins; p1; p2] ++ [0] ++ be 2 (len data) ++ data)
| Apdu4 data le : 0 < len data < 65536 -> le < 65536 ->
    apdu cla ins p1 p2 data le ([cla; ins; p1; p2] ++ [0] ++ be 2 (len data) ++ data ++ be 2 le).

(* Read as an APDU (if it is one), [msg] has this instruction, first parameter and data. *)
Definition reads (msg : bytes) (ins p1 : N) (data : bytes) : Prop :=
  forall cla i q p2 d le, apdu cla i q p2 d le msg -> i = ins /\ q = p1 /\ d = data.

(* FIDO U2F Raw Message Formats 1.2, section 4.3: registration. *)
Definition registration_reply (pk h cert sig : bytes) : bytes :=
  [5] ++ pk ++ [len h] ++ h ++ cert ++ sig ++ [0x90; 0].
Definition registration_signed (app chal h pk : bytes) : bytes := [0] ++ app ++ chal ++ h ++ pk.
(* An uncompressed point. *)
Definition encodes_point (pk : bytes) (q : N * N) : Prop := pk = [4] ++ be 32 (fst q) ++ be 32 (snd q).

(* Section 5.4: authentication. *)
Definition authentication_reply (presence n : N) (sig : bytes) : bytes := [presence] ++ be 4 n ++ sig ++ [0x90; 0].
Definition authentication_signed (app : bytes) (presence n : N) (chal : bytes) : bytes :=
  app ++ [presence] ++ be 4 n ++ chal.
Definition authentication_data (chal app h : bytes) : bytes := chal ++ app ++ [len h] ++ h.

Definition refused : bytes := [0x69; 0x85].
Definition wrong_data : bytes := [0x6A; 0x80].
Definition wrong_length : bytes := [0x67; 0].

(* A key handle is the CBOR of a sealed box over the CBOR of private key and application. *)
Definition handle_doc (key app : bytes) : cbor := CMap [(CUint 1, CBytes key); (CUint 2, CBytes app)].
Definition box_doc (data iv : bytes) : cbor := CMap [(CUint 1, CBytes data); (CUint 2, CBytes iv)].

(* [h] is a key handle sealed with [key], for private key [kb] (SEC 1) and [app]. *)
Definition sealed (C : Crypto) (key h kb app : bytes) : Prop :=
  exists nonce plain,
    unmarshal dec_box h = Some {| bx_data := Some (gcm_seal C key nonce plain); bx_iv := Some nonce |} /\
    len nonce = 12 /\
    exists a, unmarshal dec_key_handle plain = Some {| kh_key := Some kb; kh_app := a |} /\ or_nil a = app.

(* Read as an authentication request (if it is one), [msg] has these parts. *)
Definition asks (msg : bytes) (control : N) (chal app h : bytes) : Prop :=
  forall cla i q p2 c a k rest le, apdu cla i q p2 (authentication_data c a k ++ rest) le msg ->
    len c = 32 -> len a = 32 -> len k < 256 -> q = control /\ c = chal /\ a = app /\ k = h.

(* A box that only this key seals. *)
Definition own_box (C : Crypto) (key : bytes) (bx : box) : Prop :=
  exists nonce plain, bx = {| bx_data := Some (gcm_seal C key nonce plain); bx_iv := Some nonce |} /\ len nonce = 12.
