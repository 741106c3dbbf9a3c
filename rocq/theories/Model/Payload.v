(* Model of packet_meta.c and payload.c (src/wickrcrypto/src).
   Simplification: structures made by the library have their mandatory members. *)
From Verif.Base Require Import Bytes Monad.
From Verif.Model Require Import Buffer Cipher Prims Engine Proto.
Local Open Scope N_scope.
Local Open Scope res_scope.
Local Open Scope m_scope.

(* packet_meta.h; times are uint64_t, the content type is a uint16_t *)
Record packet_meta := { me_ttl : N; me_bor : N; me_tag : bytes; me_type : N }.
Record payload := { py_meta : packet_meta; py_body : bytes }.

(* packet_meta.c:5-17; the argument is converted to uint16_t *)
Definition packet_meta_create (ttl bor : N) (channel_tag : option bytes) (content_type : N) : option packet_meta :=
  match channel_tag with
  | None => None
  | Some t => Some {| me_ttl := ttl; me_bor := bor; me_tag := t; me_type := content_type mod 65536 |}
  end.
(* packet_meta.c:19-38 *)
Definition packet_meta_copy (source : option packet_meta) : option packet_meta :=
  match source with
  | None => None
  | Some s => match buffer_copy (Some (me_tag s)) with
              | None => None
              | Some t => packet_meta_create (me_ttl s) (me_bor s) (Some t) (me_type s)
              end
  end.
(* payload.c:6-22 *)
Definition payload_create (m : option packet_meta) (body : option bytes) : option payload :=
  match m, body with
  | Some x, Some b => Some {| py_meta := x; py_body := b |}
  | _, _ => None
  end.
(* payload.c:24-51 *)
Definition payload_copy (source : option payload) : option payload :=
  match source with
  | None => None
  | Some s =>
      match packet_meta_copy (Some (py_meta s)), buffer_copy (Some (py_body s)) with
      | Some m, Some b => payload_create (Some m) (Some b)
      | _, _ => None
      end
  end.

(* src/protobuf/message.proto, message payload *)
Record pb_eph := { pe_ttl : N; pe_bor : option N }.
Record pb_meta := { pm_eph : pb_eph; pm_tag : option bytes; pm_type : option N }.
Record pb_payload := { pp_meta : pb_meta; pp_body : bytes }.
Definition pb_eph_pack (m : pb_eph) : bytes := (f_var 1 (pe_ttl m) ++ f_var_opt 2 (pe_bor m))%list.
Definition pb_eph_unpack (b : bytes) : option pb_eph :=
  match scan b with
  | None => None
  | Some fs => match get_u64 1 fs, get_u64 2 fs with
               | Some (Some t), Some o => Some {| pe_ttl := t; pe_bor := o |}
               | _, _ => None
               end
  end.
(* a required field of the later message stays, an optional one may come from the earlier *)
Definition pb_eph_merge (e l : pb_eph) : pb_eph := {| pe_ttl := pe_ttl l; pe_bor := merge_opt (pe_bor e) (pe_bor l) |}.
Definition pb_meta_pack (m : pb_meta) : bytes :=
  (f_len 1 (pb_eph_pack (pm_eph m)) ++ f_len_opt 2 (pm_tag m) ++ f_var_opt 3 (pm_type m))%list.
Definition pb_meta_unpack (b : bytes) : option pb_meta :=
  match scan b with
  | None => None
  | Some fs =>
      match get_msg 1 pb_eph_unpack pb_eph_merge fs None, get_bytes 2 fs None, get_u32 3 fs with
      | Some (Some e), Some t, Some c => Some {| pm_eph := e; pm_tag := t; pm_type := c |}
      | _, _, _ => None
      end
  end.
Definition pb_meta_merge (e l : pb_meta) : pb_meta :=
  {| pm_eph := pm_eph l; pm_tag := merge_bytes (pm_tag e) (pm_tag l); pm_type := merge_opt (pm_type e) (pm_type l) |}.
Definition pb_payload_pack (m : pb_payload) : bytes := (f_len 3 (pb_meta_pack (pp_meta m)) ++ f_len 4 (pp_body m))%list.
Definition pb_payload_unpack (b : bytes) : option pb_payload :=
  match scan b with
  | None => None
  | Some fs =>
      match get_msg 3 pb_meta_unpack pb_meta_merge fs None, get_bytes 4 fs None with
      | Some (Some m), Some (Some body) => Some {| pp_meta := m; pp_body := body |}
      | _, _ => None
      end
  end.

(* payload.c:65-107 *)
Definition payload_to_proto (p : payload) : pb_payload :=
  let m := py_meta p in
  {| pp_meta := {| pm_eph := {| pe_ttl := me_ttl m; pe_bor := if me_bor m =? 0 then None else Some (me_bor m) |};
                   pm_tag := Some (me_tag m); pm_type := Some (me_type m) |};
     pp_body := py_body p |}.
Definition payload_serialize (p : option payload) : option bytes :=
  match p with
  | None => None
  | Some x => pack_buffer (pb_payload_pack (payload_to_proto x))
  end.
(* payload.c:109-163; a missing channel tag is an empty byte string, which no buffer holds *)
Definition payload_create_from_buffer (buffer : option bytes) : option payload :=
  match buffer with
  | None => None
  | Some b =>
      match pb_payload_unpack b with
      | None => None
      | Some m =>
          let pm := pp_meta m in
          match buffer_create (obytes (pm_tag pm)) with
          | None => None
          | Some tag =>
              match packet_meta_create (pe_ttl (pm_eph pm)) (match pe_bor (pm_eph pm) with Some x => x | None => 0 end) (Some tag)
                      (match pm_type pm with Some t => t | None => 0 end) with
              | None => None
              | Some meta => match buffer_create (pp_body m) with
                             | None => None
                             | Some body => payload_create (Some meta) (Some body)
                             end
              end
          end
      end
  end.

Section Payload.
Context (P : prims).
(* payload.c:166-182 *)
Definition payload_encrypt (p : option payload) (payload_key : option cipher_key) : M cipher_result :=
  match p, payload_key with
  | Some x, Some k =>
      buffer <-~ payload_serialize (Some x) ;;
      aes256_encrypt P (Some buffer) None (Some k) None
  | _, _ => mres Null
  end.
(* payload.c:185-203 *)
Definition payload_create_from_cipher (r : option cipher_result) (payload_key : option cipher_key) : res payload :=
  match r, payload_key with
  | Some c, Some k =>
      decoded <- aes256_decrypt P (Some c) None (Some k) true ;;
      lift (payload_create_from_buffer (Some decoded))
  | _, _ => Null
  end.
End Payload.
