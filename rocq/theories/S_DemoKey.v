(* Devices of the demo. *)
From Verif Require Import Base M_Crypto M_Cose M_State M_Client M_History M_DemoClient.

(* Every start of the device is by the demo. *)
Definition by_demo (E : Env) (h : list entry) : Prop :=
  forall p, In (HStart p) h -> exists cert k, p = demo_params (e_C E) cert k.
