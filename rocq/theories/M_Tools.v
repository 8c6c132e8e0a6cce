(* cmd/tools/tools.go: the debugging tool "tools cbor".  Simplifications: the command line
   (cobra) has found one argument; the item shown stands for the text that fmt prints of it,
   with maps as the list of their pairs (a Go map keeps the last of two equal keys and has no
   order); big negative integers, dates and bignums are shown as items. *)
From Verif Require Import Base M_Utf8 M_Cbor M_Json.

Inductive tool_result : Type :=
| TBadBase64                  (* panic "Could not decode base64" *)
| TBadCbor                    (* panic "Could not decode CBOR" *)
| TShows (v : cbor).

(* cmd/tools/tools.go:18-26, decodeCbor: StdEncoding.DecodeString, then Unmarshal into
   interface{}. *)
Definition decode_cbor (arg : bytes) : tool_result :=
  match b64_dec arg with
  | None => TBadBase64
  | Some data =>
    match unmarshal (fun v => if any_ok v then Some v else None) data with
    | Some v => TShows v
    | None => TBadCbor
    end
  end.
