(* The client the demo makes, cmd/demo/demo.go:99-113 (createClient).  The authority's certificate and
   key are new at each start (they are replaced by saved ones, if there are any); the key that seals the
   U2F key handles is not. *)
From Verif Require Import Base M_Str M_Crypto M_Cose M_State M_Client M_History.

Section DemoClient.
  Variable C : Crypto.
  (* demo.go:104, sha256.Sum256([]byte("test")). *)
  Definition demo_key : bytes := sha256 C (str "test").
  (* demo.go:113, NewDefaultClient(certificateAuthority, caPrivateKey, encryptionKey, false, ...). *)
  Definition demo_params (cert : bytes) (k : cose_priv) : params :=
    {| pa_cert := cert; pa_certkey := k; pa_key := demo_key; pa_pin := false |}.
End DemoClient.
