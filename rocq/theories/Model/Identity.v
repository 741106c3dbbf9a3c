(* Model of identity.c, identity_priv.c and eckey_priv.c, ecdsa_priv.c, buffer_priv.c (src/wickrcrypto/src).
   Simplification: the engine pointer is never NULL; structures made by the library have
   their mandatory members, so those are not optional here. *)
From Verif.Base Require Import Bytes Monad.
From Verif.Model Require Import Buffer Cipher Ecdsa Prims Engine Fingerprint Proto.
Local Open Scope N_scope.
Local Open Scope res_scope.
Local Open Scope m_scope.

(* identity.h:44-49 *)
Definition IDENTIFIER_LEN : N := 32.
Definition MAX_IDENTIFIER_LEN : N := 128.
(* identity.h:56-66 *)
Inductive identity_type := ID_ROOT | ID_NODE.
Inductive status := S_UNKNOWN | S_VALID | S_INVALID.
Definition status_int (s : status) : N := match s with S_UNKNOWN => 0 | S_VALID => 1 | S_INVALID => 2 end.

Record identity := { id_type : identity_type; id_identifier : bytes; id_key : ec_key; id_signature : option ecdsa_result }.
Record chain := { ch_root : identity; ch_node : identity; ch_status : status; ch_cache : option bytes }.

(* identity.c:5-24 *)
Definition identity_create (t : identity_type) (identifier : option bytes) (key : option ec_key) (sig : option ecdsa_result) : option identity :=
  match identifier, key with
  | Some i, Some k =>
      if MAX_IDENTIFIER_LEN <=? blen i then None
      else Some {| id_type := t; id_identifier := i; id_key := k; id_signature := sig |}
  | _, _ => None
  end.

(* identity.c:73-103; a signature that cannot be copied is dropped *)
Definition identity_copy (source : option identity) : option identity :=
  match source with
  | None => None
  | Some s =>
      match buffer_copy (Some (id_identifier s)), ec_key_copy (Some (id_key s)) with
      | Some i, Some k => identity_create (id_type s) (Some i) (Some k) (ecdsa_result_copy (id_signature s))
      | _, _ => None
      end
  end.

(* identity.c:212-229 *)
Definition chain_create (root node : option identity) : option chain :=
  match root, node with
  | Some r, Some n => Some {| ch_root := r; ch_node := n; ch_status := S_UNKNOWN; ch_cache := None |}
  | _, _ => None
  end.
(* identity.c:231-271 *)
Definition chain_copy (source : option chain) : option chain :=
  match source with
  | None => None
  | Some s =>
      match identity_copy (Some (ch_root s)), identity_copy (Some (ch_node s)) with
      | Some r, Some n =>
          let cache := buffer_copy (ch_cache s) in
          match ch_cache s, cache with
          | Some _, None => None
          | _, _ => Some {| ch_root := r; ch_node := n; ch_status := ch_status s; ch_cache := cache |}
          end
      | _, _ => None
      end
  end.

(* src/protobuf/identity.proto; the enumeration is kept as the 32-bit number *)
Record pb_identity := { pi_identifier : option bytes; pi_sig_key : option bytes; pi_signature : option bytes;
                        pi_type : option N; pi_is_private : option bool }.
Record pb_chain := { pc_root : option pb_identity; pc_node : option pb_identity }.
Definition bool_var (b : bool) : N := if b then 1 else 0.
Definition pb_identity_pack (m : pb_identity) : bytes :=
  (f_len_opt 1 (pi_identifier m) ++ f_len_opt 2 (pi_sig_key m) ++ f_len_opt 3 (pi_signature m) ++
   f_var_opt 4 (pi_type m) ++ f_var_opt 5 (option_map bool_var (pi_is_private m)))%list.
Definition pb_identity_unpack (b : bytes) : option pb_identity :=
  match scan b with
  | None => None
  | Some fs =>
      match get_bytes 1 fs None, get_bytes 2 fs None, get_bytes 3 fs None, get_u32 4 fs, get_bool 5 fs with
      | Some i, Some k, Some s, Some t, Some p =>
          Some {| pi_identifier := i; pi_sig_key := k; pi_signature := s; pi_type := t; pi_is_private := p |}
      | _, _, _, _, _ => None
      end
  end.
Definition pb_identity_merge (e l : pb_identity) : pb_identity :=
  {| pi_identifier := merge_bytes (pi_identifier e) (pi_identifier l);
     pi_sig_key := merge_bytes (pi_sig_key e) (pi_sig_key l);
     pi_signature := merge_bytes (pi_signature e) (pi_signature l);
     pi_type := merge_opt (pi_type e) (pi_type l);
     pi_is_private := merge_opt (pi_is_private e) (pi_is_private l) |}.
Definition pb_chain_pack (m : pb_chain) : bytes :=
  (f_len_opt 1 (option_map pb_identity_pack (pc_root m)) ++ f_len_opt 2 (option_map pb_identity_pack (pc_node m)))%list.
Definition pb_chain_unpack (b : bytes) : option pb_chain :=
  match scan b with
  | None => None
  | Some fs =>
      match get_msg 1 pb_identity_unpack pb_identity_merge fs None, get_msg 2 pb_identity_unpack pb_identity_merge fs None with
      | Some r, Some n => Some {| pc_root := r; pc_node := n |}
      | _, _ => None
      end
  end.
Definition pb_chain_merge (e l : pb_chain) : pb_chain :=
  {| pc_root := merge_sub pb_identity_merge (pc_root e) (pc_root l);
     pc_node := merge_sub pb_identity_merge (pc_node e) (pc_node l) |}.

(* identity_priv.c:29-92 *)
Definition identity_build_proto (x : identity) (is_private : bool) : option pb_identity :=
  match (if is_private then ek_pri (id_key x) else Some (ek_pub (id_key x))) with
  | None => None
  | Some k =>
      let mk s := {| pi_identifier := Some (id_identifier x); pi_sig_key := Some k; pi_signature := s;
                     pi_type := Some (match id_type x with ID_ROOT => 0 | ID_NODE => 1 end);
                     pi_is_private := Some is_private |} in
      match id_type x with
      | ID_ROOT => Some (mk None)
      | ID_NODE => match ecdsa_result_serialize (id_signature x) with
                   | None => None
                   | Some s => Some (mk (Some s))
                   end
      end
  end.
(* identity_priv.c:154-202 *)
Definition chain_build_proto (c : chain) (is_private : bool) : option pb_chain :=
  match identity_build_proto (ch_root c) is_private, identity_build_proto (ch_node c) is_private with
  | Some r, Some n => Some {| pc_root := Some r; pc_node := Some n |}
  | _, _ => None
  end.
(* identity.c:118-143 *)
Definition identity_serialize (x : option identity) : option bytes :=
  match x with
  | None => None
  | Some i => match identity_build_proto i false with Some m => pack_buffer (pb_identity_pack m) | None => None end
  end.
(* identity.c:292-333 *)
Definition chain_serialize_with (c : option chain) (include_private : bool) : option bytes :=
  match c with
  | None => None
  | Some x => match chain_build_proto x include_private with Some m => pack_buffer (pb_chain_pack m) | None => None end
  end.
Definition chain_serialize (c : option chain) : option bytes := chain_serialize_with c false.
Definition chain_serialize_private (c : option chain) : option bytes := chain_serialize_with c true.

Section Identity.
Context (P : prims).

(* identity.c:26-33 *)
Definition identity_sign (x : option identity) (data : option bytes) : M ecdsa_result :=
  match x, data with
  | Some i, Some d =>
      match ek_pri (id_key i) with
      | None => mres Null
      | Some _ => ec_sign P (Some (id_key i)) (Some d) SHA512
      end
  | _, _ => mres Null
  end.
(* identity.c:35-71; the default curve is P-521 *)
Definition node_identity_gen (root_identity : option identity) (identifier : option bytes) : M identity :=
  match root_identity with
  | Some r =>
      match id_type r with
      | ID_NODE => mres Null
      | ID_ROOT =>
          node_sig_key <-- ec_rand_key P P521 ;;
          node_sig <-- identity_sign (Some r) (Some (ek_pub node_sig_key)) ;;
          node_identifier <-- (match identifier with
                               | Some i => mlift (buffer_copy (Some i))
                               | None => crypto_random P IDENTIFIER_LEN
                               end) ;;
          mlift (identity_create ID_NODE (Some node_identifier) (Some node_sig_key) (Some node_sig))
      end
  | None => mres Null
  end.
(* identity.c:163-172 *)
Definition identity_get_fingerprint (x : option identity) : res fingerprint :=
  match x with
  | None => Null
  | Some i => fingerprint_gen P (Some (id_key i)) (Some (id_identifier i)) FP_SHA512
  end.
(* identity.c:174-210 *)
Definition identity_get_bilateral_fingerprint (x remote : option identity) : res fingerprint :=
  match x, remote with
  | Some a, Some b =>
      local_fingerprint <- fingerprint_gen P (Some (id_key a)) (Some (id_identifier a)) FP_SHA512 ;;
      remote_fingerprint <- fingerprint_gen P (Some (id_key b)) (Some (id_identifier b)) FP_SHA512 ;;
      lift (fingerprint_gen_bilateral P (Some local_fingerprint) (Some remote_fingerprint) FP_SHA512)
  | _, _ => Null
  end.

(* eckey_priv.c:3-10, ecdsa_priv.c:3-10 are the calls themselves *)
(* identity_priv.c:104-152 *)
Definition identity_create_from_proto (m : option pb_identity) : res identity :=
  match m with
  | Some x =>
      match pi_identifier x, pi_sig_key x, pi_type x with
      | Some i, Some k, Some t =>
          id_buffer <~ buffer_create i ;;
          let has_private := match pi_is_private x with Some b => b | None => false end in
          sig_key <~ ec_key_import P (Some k) has_private ;;
          signature <- (match pi_signature x with
                        | Some s => r <- ecdsa_result_create_from_buffer (Some s) ;; Val (Some r)
                        | None => Val None
                        end) ;;
          lift (identity_create (if t =? 1 then ID_NODE else ID_ROOT) (Some id_buffer) (Some sig_key) signature)
      | _, _, _ => Null
      end
  | None => Null
  end.
(* identity_priv.c:214-243 *)
Definition chain_create_from_proto (m : option pb_chain) : res chain :=
  match m with
  | None => Null
  | Some x =>
      root <- identity_create_from_proto (pc_root x) ;;
      node <- identity_create_from_proto (pc_node x) ;;
      lift (chain_create (Some root) (Some node))
  end.
(* identity.c:145-161 *)
Definition identity_create_from_buffer (b : option bytes) : res identity :=
  match b with
  | None => Null
  | Some x => m <~ pb_identity_unpack x ;; identity_create_from_proto (Some m)
  end.
(* identity.c:335-351 *)
Definition chain_create_from_buffer (b : option bytes) : res chain :=
  match b with
  | None => Null
  | Some x => m <~ pb_chain_unpack x ;; chain_create_from_proto (Some m)
  end.

(* identity_priv.c:245-280 *)
Definition chain_make_status_cache (c : chain) : option bytes :=
  match id_signature (ch_node c) with
  | None => None
  | Some s =>
      match buffer_concat_multi [Some (ek_pub (id_key (ch_root c))); Some (es_sig s);
                                 Some (ek_pub (id_key (ch_node c))); Some [n2b (status_int (ch_status c))]] with
      | None => None
      | Some x => sha2 P (Some x) None SHA512
      end
  end.
(* identity_priv.c:282-296 *)
Definition chain_has_valid_cache (c : chain) : bool :=
  match ch_cache c with
  | None => false
  | Some v => buffer_is_equal (chain_make_status_cache c) (Some v)
  end.
(* identity_priv.c:298-302 *)
Definition chain_update_status_cache (c : chain) : chain :=
  {| ch_root := ch_root c; ch_node := ch_node c; ch_status := ch_status c; ch_cache := chain_make_status_cache c |}.
Definition chain_set_status (c : chain) (s : status) : chain :=
  {| ch_root := ch_root c; ch_node := ch_node c; ch_status := s; ch_cache := ch_cache c |}.
(* identity.c:273-290; the chain is changed in place *)
Definition chain_validate (c : chain) : bool * chain :=
  if chain_has_valid_cache c then (match ch_status c with S_VALID => true | _ => false end, c)
  else
    let is_valid := ec_verify P (id_signature (ch_node c)) (Some (id_key (ch_root c))) (Some (ek_pub (id_key (ch_node c)))) in
    (is_valid, chain_update_status_cache (chain_set_status c (if is_valid then S_VALID else S_INVALID))).

End Identity.
