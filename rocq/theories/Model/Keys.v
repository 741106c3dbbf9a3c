(* Model of root_keys.c, storage.c, storage_priv.c, devinfo.c and cipher_priv.c (src/wickrcrypto/src).
   Simplification: the engine pointer is never NULL; the default cipher is AES-256-GCM and the
   default curve P-521 (crypto_engine.c, wickr_crypto_engine_get_default); structures made by the
   library have their mandatory members, so those are not optional here. *)
From Verif.Base Require Import Bytes Monad.
From Verif.Model Require Import Buffer Cipher Ecdsa Prims Engine Proto.
Local Open Scope N_scope.
Local Open Scope res_scope.
Local Open Scope m_scope.

Definition default_cipher : cipher := AES256_GCM.

(* root_keys.h, storage.h, devinfo.h *)
Record root_keys := { rk_signature : ec_key; rk_node : cipher_key; rk_remote : cipher_key }.
Record storage_keys := { sk_local : cipher_key; sk_remote : cipher_key }.
Record dev_info := { di_dev_salt : bytes; di_system_salt : option bytes; di_msg_proto_id : bytes; di_srv_comm_id : bytes }.

(* root_keys.c:8, storage_priv.c:5 *)
Definition CURRENT_ROOT_KEY_VERSION : N := 1.
Definition CURRENT_STORAGE_KEY_VERSION : N := 1.

(* storage.c:7-23 *)
Definition storage_keys_create (local remote : option cipher_key) : option storage_keys :=
  match local, remote with
  | Some l, Some r => Some {| sk_local := l; sk_remote := r |}
  | _, _ => None
  end.
(* storage.c:25-52 *)
Definition storage_keys_copy (source : option storage_keys) : option storage_keys :=
  match source with
  | None => None
  | Some s =>
      match cipher_key_copy (Some (sk_local s)), cipher_key_copy (Some (sk_remote s)) with
      | Some l, Some r => storage_keys_create (Some l) (Some r)
      | _, _ => None
      end
  end.

(* src/protobuf/storage.proto *)
Record pb_root_keys := { pr_version : N; pr_node : option bytes; pr_remote : option bytes; pr_signature : option bytes }.
Record pb_storage_keys := { ps_version : N; ps_local : option bytes; ps_remote : option bytes }.
Definition pb_root_keys_pack (m : pb_root_keys) : bytes :=
  (f_var 1 (pr_version m) ++ f_len_opt 2 (pr_node m) ++ f_len_opt 3 (pr_remote m) ++ f_len_opt 4 (pr_signature m))%list.
Definition pb_root_keys_unpack (b : bytes) : option pb_root_keys :=
  match scan b with
  | None => None
  | Some fs =>
      match get_u32 1 fs, get_bytes 2 fs None, get_bytes 3 fs None, get_bytes 4 fs None with
      | Some (Some v), Some n, Some r, Some s => Some {| pr_version := v; pr_node := n; pr_remote := r; pr_signature := s |}
      | _, _, _, _ => None
      end
  end.
Definition pb_storage_keys_pack (m : pb_storage_keys) : bytes :=
  (f_var 1 (ps_version m) ++ f_len_opt 2 (ps_local m) ++ f_len_opt 3 (ps_remote m))%list.
Definition pb_storage_keys_unpack (b : bytes) : option pb_storage_keys :=
  match scan b with
  | None => None
  | Some fs =>
      match get_u32 1 fs, get_bytes 2 fs None, get_bytes 3 fs None with
      | Some (Some v), Some l, Some r => Some {| ps_version := v; ps_local := l; ps_remote := r |}
      | _, _, _ => None
      end
  end.
Definition pb_storage_keys_merge (e l : pb_storage_keys) : pb_storage_keys :=
  {| ps_version := ps_version l; ps_local := merge_bytes (ps_local e) (ps_local l);
     ps_remote := merge_bytes (ps_remote e) (ps_remote l) |}.

(* cipher_priv.c:14-30 with buffer_priv.c:11-27 *)
Definition cipher_key_to_protobytes (k : cipher_key) : option bytes := cipher_key_serialize (Some k).
(* cipher_priv.c:4-12 *)
Definition cipher_key_from_protobytes (b : bytes) : res cipher_key := cipher_key_from_buffer (Some b).

(* storage_priv.c:18-43 *)
Definition storage_keys_to_proto (k : option storage_keys) : option pb_storage_keys :=
  match k with
  | None => None
  | Some x =>
      match cipher_key_to_protobytes (sk_local x), cipher_key_to_protobytes (sk_remote x) with
      | Some l, Some r => Some {| ps_version := CURRENT_STORAGE_KEY_VERSION; ps_local := Some l; ps_remote := Some r |}
      | _, _ => None
      end
  end.
(* storage_priv.c:45-76 *)
Definition storage_keys_create_from_proto (m : option pb_storage_keys) : res storage_keys :=
  match m with
  | None => Null
  | Some x =>
      match ps_local x, ps_remote x with
      | Some l, Some r =>
          if negb (ps_version x =? CURRENT_STORAGE_KEY_VERSION) then Null
          else
            local_storage <- cipher_key_from_protobytes l ;;
            remote_storage <- cipher_key_from_protobytes r ;;
            lift (storage_keys_create (Some local_storage) (Some remote_storage))
      | _, _ => Null
      end
  end.
(* storage.c:54-73; the packed size of a NULL message is taken *)
Definition storage_keys_serialize (k : option storage_keys) : res bytes :=
  match k with
  | None => Null
  | Some x => match storage_keys_to_proto (Some x) with
              | None => UB
              | Some m => lift (pack_buffer (pb_storage_keys_pack m))
              end
  end.
(* storage.c:75-88 *)
Definition storage_keys_create_from_buffer (b : option bytes) : res storage_keys :=
  match b with
  | None => Null
  | Some x => storage_keys_create_from_proto (pb_storage_keys_unpack x)
  end.

(* root_keys.c:10-28 *)
Definition root_keys_create (sig : option ec_key) (node_storage remote_storage : option cipher_key) : option root_keys :=
  match sig, node_storage, remote_storage with
  | Some s, Some n, Some r => Some {| rk_signature := s; rk_node := n; rk_remote := r |}
  | _, _, _ => None
  end.
(* root_keys.c:237-273 *)
Definition root_keys_copy (source : option root_keys) : option root_keys :=
  match source with
  | None => None
  | Some s =>
      match ec_key_copy (Some (rk_signature s)), cipher_key_copy (Some (rk_node s)), cipher_key_copy (Some (rk_remote s)) with
      | Some k, Some n, Some r => root_keys_create (Some k) (Some n) (Some r)
      | _, _, _ => None
      end
  end.
(* root_keys.c:126-178; neither the argument nor the private key is tested for NULL *)
Definition root_keys_serialize (keys : option root_keys) : res bytes :=
  match keys with
  | None => UB
  | Some k =>
      match ek_pri (rk_signature k) with
      | None => UB
      | Some pri =>
          node <~ cipher_key_serialize (Some (rk_node k)) ;;
          remote <~ cipher_key_serialize (Some (rk_remote k)) ;;
          lift (pack_buffer (pb_root_keys_pack {| pr_version := CURRENT_ROOT_KEY_VERSION; pr_node := Some node;
                                                  pr_remote := Some remote; pr_signature := Some pri |}))
      end
  end.

(* devinfo.c:5-23 *)
Definition dev_info_create (dev_salt system_salt msg_proto_id srv_comm_id : option bytes) : option dev_info :=
  match dev_salt, msg_proto_id, srv_comm_id with
  | Some d, Some m, Some s => Some {| di_dev_salt := d; di_system_salt := system_salt; di_msg_proto_id := m; di_srv_comm_id := s |}
  | _, _, _ => None
  end.
(* devinfo.c:103-150; a NULL system salt cannot be copied *)
Definition dev_info_copy (info : option dev_info) : option dev_info :=
  match info with
  | None => None
  | Some i =>
      match buffer_copy (di_system_salt i), buffer_copy (Some (di_dev_salt i)),
            buffer_copy (Some (di_msg_proto_id i)), buffer_copy (Some (di_srv_comm_id i)) with
      | Some y, Some d, Some m, Some s => dev_info_create (Some d) (Some y) (Some m) (Some s)
      | _, _, _, _ => None
      end
  end.

Section Keys.
Context (P : prims).

(* root_keys.c:30-66; a NULL signature key is caught by root_keys_create *)
Definition root_keys_generate : M root_keys :=
  node_storage <-- cipher_key_random P default_cipher ;;
  remote_storage <-- cipher_key_random P default_cipher ;;
  sig <-- mtry (ec_rand_key P P521) ;;
  mlift (root_keys_create sig (Some node_storage) (Some remote_storage)).
(* root_keys.c:68-124; the presence of the signature key is not tested, and a NULL remote key
   only by root_keys_create *)
Definition root_keys_create_from_buffer (buffer : option bytes) : res root_keys :=
  match buffer with
  | None => Null
  | Some b =>
      m <~ pb_root_keys_unpack b ;;
      match pr_node m, pr_remote m with
      | Some n, Some r =>
          if CURRENT_ROOT_KEY_VERSION <? pr_version m then Null
          else
            node_storage <- cipher_key_from_protobytes n ;;
            remote_storage <- rtry (cipher_key_from_protobytes r) ;;
            sig <~ ec_key_import P (Some (obytes (pr_signature m))) true ;;
            lift (root_keys_create (Some sig) (Some node_storage) remote_storage)
      | _, _ => Null
      end
  end.
(* root_keys.c:180-196 *)
Definition root_keys_export (keys : option root_keys) (export_key : option cipher_key) : M cipher_result :=
  match keys, export_key with
  | Some k, Some e =>
      serialized <-= root_keys_serialize (Some k) ;;
      aes256_encrypt P (Some serialized) None (Some e) None
  | _, _ => mres Null
  end.
(* root_keys.c:198-235 *)
Definition root_keys_localize (keys : option root_keys) (info : option dev_info) : option storage_keys :=
  match keys, info with
  | Some k, Some i =>
      match cipher_key_copy (Some (rk_remote k)) with
      | None => None
      | Some rsr_copy =>
          match sha2 P (Some (ck_data (rk_node k))) (di_system_salt i) SHA256 with
          | None => None
          | Some material =>
              match cipher_key_create (ck_cipher (rk_node k)) (Some material) with
              | None => None
              | Some local => storage_keys_create (Some local) (Some rsr_copy)
              end
          end
      end
  | _, _ => None
  end.

(* devinfo.c:50-101 *)
Definition dev_info_derive (dev_salt system_id : option bytes) : option dev_info :=
  match dev_salt, system_id with
  | Some salt, Some sid =>
      match sha2 P (Some sid) None SHA256, sha2 P (Some sid) (Some salt) SHA512 with
      | Some system_salt, Some id_data =>
          match buffer_copy_section id_data 0 (digest_size SHA512 / 2),
                buffer_copy_section id_data (digest_size SHA512 / 2) (digest_size SHA512 / 2) with
          | Some m, Some s => dev_info_create (Some salt) (Some system_salt) (Some m) (Some s)
          | _, _ => None
          end
      | _, _ => None
      end
  | _, _ => None
  end.
(* devinfo.c:25-48 *)
Definition dev_info_create_new (system_id : option bytes) : M dev_info :=
  match system_id with
  | None => mres Null
  | Some sid =>
      salt <-- crypto_random P (digest_size SHA512) ;;
      mlift (dev_info_derive (Some salt) (Some sid))
  end.
End Keys.
