(* Model of node.c, node_priv.c, ephemeral_keypair.c and ephemeral_keypair_priv.c.
   Simplification: the engine pointer is never NULL. *)
From Verif.Base Require Import Bytes Monad.
From Verif.Model Require Import Buffer Cipher Ecdsa Prims Engine Proto Identity.
Local Open Scope N_scope.
Local Open Scope res_scope.
Local Open Scope m_scope.

Record keypair := { kp_identifier : N; kp_key : ec_key; kp_signature : option ecdsa_result }.
Record node := { nd_dev_id : bytes; nd_chain : chain; nd_keypair : option keypair; nd_status : status; nd_cache : option bytes }.

(* ephemeral_keypair.c:6-23 *)
Definition keypair_create (identifier : N) (key : option ec_key) (sig : option ecdsa_result) : option keypair :=
  match key with None => None | Some k => Some {| kp_identifier := identifier; kp_key := k; kp_signature := sig |} end.
(* ephemeral_keypair.c:50-53 *)
Definition keypair_make_public (k : keypair) : keypair :=
  {| kp_identifier := kp_identifier k;
     kp_key := {| ek_curve := ek_curve (kp_key k); ek_pub := ek_pub (kp_key k); ek_pri := None |};
     kp_signature := kp_signature k |}.
(* ephemeral_keypair.c:55-82 *)
Definition keypair_copy (source : option keypair) : option keypair :=
  match source with
  | None => None
  | Some s =>
      match ec_key_copy (Some (kp_key s)) with
      | None => None
      | Some k => match kp_signature s, ecdsa_result_copy (kp_signature s) with
                  | Some _, None => None
                  | _, sg => keypair_create (kp_identifier s) (Some k) sg
                  end
      end
  end.

(* node.c:9-26 *)
Definition node_create (dev_id : option bytes) (c : option chain) (kp : option keypair) : option node :=
  match dev_id, c with
  | Some d, Some x => Some {| nd_dev_id := d; nd_chain := x; nd_keypair := kp; nd_status := S_UNKNOWN; nd_cache := None |}
  | _, _ => None
  end.
(* node.c:28-50: the answer and the node; the new keypair is another object than the old *)
Definition node_rotate_keypair (n : node) (new_keypair : option keypair) (copy : bool) : bool * node :=
  match new_keypair with
  | None => (false, n)
  | Some k =>
      let set kp := {| nd_dev_id := nd_dev_id n; nd_chain := nd_chain n; nd_keypair := kp;
                       nd_status := S_UNKNOWN; nd_cache := nd_cache n |} in
      if copy then match keypair_copy (Some k) with
                   | None => (false, set None)
                   | Some k' => (true, set (Some k'))
                   end
      else (true, set (Some k))
  end.
(* node.c:79-129 *)
Definition node_copy (source : option node) : option node :=
  match source with
  | None => None
  | Some s =>
      match buffer_copy (Some (nd_dev_id s)), chain_copy (Some (nd_chain s)) with
      | Some d, Some c =>
          match nd_keypair s, keypair_copy (nd_keypair s) with
          | Some _, None => None
          | _, kp =>
              match nd_cache s, buffer_copy (nd_cache s) with
              | Some _, None => None
              | _, cache => Some {| nd_dev_id := d; nd_chain := c; nd_keypair := kp; nd_status := nd_status s; nd_cache := cache |}
              end
          end
      | _, _ => None
      end
  end.

(* node.c:161-164 with array.c:119-137: unset slots stay unset, an item that cannot be copied fails *)
Fixpoint node_items_copy (l : list (option node)) : option (list (option node)) :=
  match l with
  | [] => Some []
  | None :: r => match node_items_copy r with Some r' => Some (None :: r') | None => None end
  | Some x :: r =>
      match node_copy (Some x) with
      | None => None
      | Some y => match node_items_copy r with Some r' => Some (Some y :: r') | None => None end
      end
  end.

(* src/protobuf/ephemeral_keypair.proto, node.proto *)
Record pb_keypair := { pk_identifier : option N; pk_ec_key : option bytes; pk_signature : option bytes }.
Record pb_node := { pn_devid : option bytes; pn_chain : option pb_chain; pn_keypair : option pb_keypair }.
Definition pb_keypair_pack (m : pb_keypair) : bytes :=
  (f_var_opt 1 (pk_identifier m) ++ f_len_opt 2 (pk_ec_key m) ++ f_len_opt 3 (pk_signature m))%list.
Definition pb_keypair_unpack (b : bytes) : option pb_keypair :=
  match scan b with
  | None => None
  | Some fs =>
      match get_u64 1 fs, get_bytes 2 fs None, get_bytes 3 fs None with
      | Some i, Some k, Some s => Some {| pk_identifier := i; pk_ec_key := k; pk_signature := s |}
      | _, _, _ => None
      end
  end.
Definition pb_keypair_merge (e l : pb_keypair) : pb_keypair :=
  {| pk_identifier := merge_opt (pk_identifier e) (pk_identifier l);
     pk_ec_key := merge_bytes (pk_ec_key e) (pk_ec_key l);
     pk_signature := merge_bytes (pk_signature e) (pk_signature l) |}.
Definition pb_node_pack (m : pb_node) : bytes :=
  (f_len_opt 1 (pn_devid m) ++ f_len_opt 2 (option_map pb_chain_pack (pn_chain m)) ++
   f_len_opt 3 (option_map pb_keypair_pack (pn_keypair m)))%list.
Definition pb_node_unpack (b : bytes) : option pb_node :=
  match scan b with
  | None => None
  | Some fs =>
      match get_bytes 1 fs None, get_msg 2 pb_chain_unpack pb_chain_merge fs None,
            get_msg 3 pb_keypair_unpack pb_keypair_merge fs None with
      | Some d, Some c, Some k => Some {| pn_devid := d; pn_chain := c; pn_keypair := k |}
      | _, _, _ => None
      end
  end.

(* ephemeral_keypair_priv.c:21-64 *)
Definition keypair_to_proto (k : keypair) : option pb_keypair :=
  let mk s := {| pk_identifier := Some (kp_identifier k); pk_ec_key := Some (ek_pub (kp_key k)); pk_signature := s |} in
  match kp_signature k with
  | None => Some (mk None)
  | Some s => match ecdsa_result_serialize (Some s) with Some b => Some (mk (Some b)) | None => None end
  end.
(* ephemeral_keypair.c:105-130 *)
Definition keypair_serialize (k : option keypair) : option bytes :=
  match k with
  | None => None
  | Some x => match keypair_to_proto x with Some m => pack_buffer (pb_keypair_pack m) | None => None end
  end.
(* node_priv.c:21-56 *)
Definition node_to_proto (n : node) : option pb_node :=
  match (match nd_keypair n with
         | None => Some None
         | Some k => match keypair_to_proto k with Some m => Some (Some m) | None => None end
         end) with
  | None => None
  | Some kp => match chain_build_proto (nd_chain n) false with
               | None => None
               | Some c => Some {| pn_devid := Some (nd_dev_id n); pn_chain := Some c; pn_keypair := kp |}
               end
  end.
(* node.c:175-200 *)
Definition node_serialize (n : option node) : option bytes :=
  match n with
  | None => None
  | Some x => match node_to_proto x with Some m => pack_buffer (pb_node_pack m) | None => None end
  end.

Section Node.
Context (P : prims).

(* ephemeral_keypair.c:25-48 *)
Definition keypair_generate_identity (identifier : N) (x : option identity) : M keypair :=
  rnd_key <-- ec_rand_key P P521 ;;
  signature <-- identity_sign P x (Some (ek_pub rnd_key)) ;;
  mlift (keypair_create identifier (Some rnd_key) (Some signature)).
(* ephemeral_keypair.c:84-91 *)
Definition keypair_verify_owner (k : option keypair) (owner : option identity) : bool :=
  match k, owner with
  | Some x, Some o => ec_verify P (kp_signature x) (Some (id_key o)) (Some (ek_pub (kp_key x)))
  | _, _ => false
  end.
(* ephemeral_keypair_priv.c:66-102 *)
Definition keypair_create_from_proto (m : option pb_keypair) : res keypair :=
  match m with
  | None => Null
  | Some x =>
      match pk_ec_key x, pk_identifier x with
      | Some k, Some i =>
          key <~ ec_key_import P (Some k) false ;;
          signature <- (match pk_signature x with
                        | Some s => r <- ecdsa_result_create_from_buffer (Some s) ;; Val (Some r)
                        | None => Val None
                        end) ;;
          lift (keypair_create i (Some key) signature)
      | _, _ => Null
      end
  end.
(* ephemeral_keypair.c:132-148 *)
Definition keypair_create_from_buffer (b : option bytes) : res keypair :=
  match b with
  | None => Null
  | Some x => m <~ pb_keypair_unpack x ;; keypair_create_from_proto (Some m)
  end.
(* node_priv.c:58-102 *)
Definition node_create_from_proto (m : option pb_node) : res node :=
  match m with
  | None => Null
  | Some x =>
      match pn_devid x with
      | None => Null
      | Some d =>
          dev_id <~ buffer_create d ;;
          c <- chain_create_from_proto P (pn_chain x) ;;
          kp <- (match pn_keypair x with
                 | None => Val None
                 | Some k => r <- keypair_create_from_proto (Some k) ;; Val (Some r)
                 end) ;;
          lift (node_create (Some dev_id) (Some c) kp)
      end
  end.
(* node.c:202-218 *)
Definition node_create_from_buffer (b : option bytes) : res node :=
  match b with
  | None => Null
  | Some x => m <~ pb_node_unpack x ;; node_create_from_proto (Some m)
  end.

(* node_priv.c:104-138 *)
Definition node_make_status_cache (n : node) : option bytes :=
  match nd_keypair n with
  | None => None
  | Some k =>
      match kp_signature k, ch_cache (nd_chain n) with
      | Some s, Some _ =>
          match buffer_concat_multi [Some (ek_pub (kp_key k)); Some (es_sig s); Some [n2b (status_int (nd_status n))]] with
          | None => None
          | Some x => sha2 P (Some x) None SHA512
          end
      | _, _ => None
      end
  end.
(* node_priv.c:140-159 *)
Definition node_has_valid_cache (n : node) : bool :=
  match nd_cache n with
  | None => false
  | Some v => chain_has_valid_cache P (nd_chain n) && buffer_is_equal (node_make_status_cache n) (Some v)
  end.
(* node_priv.c:161-165 *)
Definition node_update_status_cache (n : node) : node :=
  {| nd_dev_id := nd_dev_id n; nd_chain := nd_chain n; nd_keypair := nd_keypair n; nd_status := nd_status n;
     nd_cache := node_make_status_cache n |}.
Definition node_set (n : node) (c : chain) (s : status) : node :=
  {| nd_dev_id := nd_dev_id n; nd_chain := c; nd_keypair := nd_keypair n; nd_status := s; nd_cache := nd_cache n |}.
(* node.c:52-77; the node and its chain are changed in place *)
Definition node_verify_signature_chain (n : node) : bool * node :=
  if node_has_valid_cache n then (match nd_status n with S_VALID => true | _ => false end, n)
  else
    let cv := chain_validate P (nd_chain n) in
    if negb (fst cv) then (false, node_update_status_cache (node_set n (snd cv) S_INVALID))
    else
      let has_valid_ephemeral_key := keypair_verify_owner (nd_keypair n) (Some (ch_node (snd cv))) in
      let n' := node_update_status_cache (node_set n (snd cv) (if has_valid_ephemeral_key then S_VALID else S_INVALID)) in
      ((match nd_status n' with S_VALID => true | _ => false end) &&
       (match ch_status (nd_chain n') with S_VALID => true | _ => false end), n').

End Node.
