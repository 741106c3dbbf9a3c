(* What the operations of Model/HeapProtocol.v owe their callers in terms of memory.  The
   statements are those of Spec/HeapEngineSpec.v; here is what may be left readable in released
   memory, and a weaker statement for operations that, after an allocation has failed, may give a
   lesser answer than the functional model. *)
From Verif.Base Require Import Bytes Monad.
From Verif.Model Require Import Buffer Cipher Ecdsa Kdf Prims Engine Keys Identity Node EcdhCipher Exchange Payload Packet Ctx Heap HeapObjects HeapMessages HeapParse.
From Verif.Spec Require Import HeapSpec HeapObjectSpec CopySpec HeapParseSpec HeapWriteSpec HeapEngineSpec.
Local Open Scope N_scope.

(* after a failure a [worse] answer may be given *)
Definition performs_or_worse {T V} (cells : T -> list cell) (value : T -> V) (args : list (list cell)) (pure : res V) (worse : V -> Prop)
  (public exposed : list bytes) (untested : list ctype) (leak : schedule -> Prop) (op : H (option T)) : Prop :=
  forall secret fails h, heap_ok h -> all_in_memory h args -> keeps_secret secret public ->
    (some_failure fails -> keeps_secret secret exposed) ->
    match op fails h with
    | None => pure = UB \/ exists n ty, In ty untested /\ fails n ty = true
    | Some (None, h') =>
        exists leaked, (leaked = [] \/ leak fails) /\ grown h leaked h' /\ wiped secret h h' /\ (pure = Null \/ some_failure fails)
    | Some (Some t, h') =>
        exists leaked, (leaked = [] \/ leak fails) /\ grown h (leaked ++ cells t) h' /\ wiped secret h h' /\
          (pure = Val (value t) \/ some_failure fails /\ worse (value t))
    end.

(* --- key agreement --- *)
(* the parameters' info *)
Definition km_infos (m : option kdf_meta) : list bytes := match m with Some k => opt_list (km_info k) | None => [] end.
Definition km_salts (m : option kdf_meta) : list bytes := match m with Some k => opt_list (km_salt k) | None => [] end.
(* the key agreed on *)
Definition agreed (P : prims) (x : ecdh_ctx) (r : option ec_key) (m : option kdf_meta) : list bytes :=
  match ecdh_gen_cipher_key P x r m with Val k => [ck_data k] | _ => [] end.
Definition agree_exposed (P : prims) (x : ecdh_ctx) (r : option ec_key) (m : option kdf_meta) : list bytes := agreed P x r m ++ km_salts m.
(* --- key exchanges --- *)
(* what a receiver is told by: a device identifier, an identity chain and a key *)
Definition as_node (dev_id : bytes) (ch : chain) (key : ec_key) : node :=
  {| nd_dev_id := dev_id; nd_chain := ch; nd_keypair := Some {| kp_identifier := 0; kp_key := key; kp_signature := None |};
     nd_status := S_UNKNOWN; nd_cache := None |}.
(* what names the two parties *)
Definition exchange_info (s r : chain) (dev_id : bytes) (version : N) : list bytes :=
  if version =? 2 then [dev_id]
  else if (version =? 3) || (version =? 4) then [(ek_pub (id_key (ch_root s)) ++ ek_pub (id_key (ch_root r)) ++ dev_id)%list]
  else [].
(* the key the two parties agree on *)
Definition exchange_agreed (P : prims) (s : chain) (r : node) (local : ec_key) (c : cipher) (remote : option ec_key) (psk : option bytes) (version : N) : list bytes :=
  match exchange_kdf_meta (Some s) (Some r) psk version with
  | Some m => agreed P {| ex_local := local; ex_cipher := c |} remote (Some m)
  | None => []
  end.
(* the ciphertext of an exchange *)
Definition exchange_text (P : prims) (s : chain) (r : node) (k : ec_key) (data : option bytes) (c : cipher) (psk : option bytes) (version : N) (i : nat) : res cipher_result :=
  match nd_keypair r, exchange_kdf_meta (Some s) (Some r) psk version with
  | Some kp, Some m => fst (ecdh_cipher P {| ex_local := k; ex_cipher := c |} data (Some (kp_key kp)) (Some m) i)
  | _, _ => Null
  end.
Definition plain_of {V} (plain : V -> list bytes) (r : res V) : list bytes := match r with Val v => plain v | _ => [] end.
(* making an exchange: the sender's public key, what names the parties, the nonce and the
   ciphertext; after a failure also the key agreed on and the pre-shared key *)
Definition create_public (P : prims) (s : option chain) (r : option node) (k : option ec_key) (data : option bytes) (c : cipher) (psk : option bytes)
  (version : N) (i : nat) : list bytes :=
  match s, r, k with
  | Some s, Some r, Some k =>
      ek_pub k :: exchange_info s (nd_chain r) (nd_dev_id r) version ++ drawn P i (iv_len c) ++ plain_of cr_plain (exchange_text P s r k data c psk version i)
  | _, _, _ => []
  end.
Definition create_exposed (P : prims) (s : option chain) (r : option node) (k : option ec_key) (c : cipher) (psk : option bytes) (version : N) : list bytes :=
  match s, r, k with
  | Some s, Some r, Some k =>
      match nd_keypair r with
      | Some kp => exchange_agreed P s r k c (Some (kp_key kp)) psk version ++ opt_list psk
      | None => []
      end
  | _, _, _ => []
  end.
(* reading one: the same with the receiver's key *)
Definition derive_public (s : option chain) (r : option node) (version : N) : list bytes :=
  match s, r with
  | Some s, Some r =>
      match nd_keypair r with
      | Some kp => ek_pub (kp_key kp) :: exchange_info s (nd_chain r) (nd_dev_id r) version
      | None => []
      end
  | _, _ => []
  end.
Definition derive_exposed (P : prims) (s : option chain) (r : option node) (remote : option ec_key) (x : option key_exchange) (psk : option bytes) (version : N) : list bytes :=
  match s, r, x with
  | Some s, Some r, Some x =>
      match nd_keypair r with
      | Some kp => exchange_agreed P s r (kp_key kp) (cr_cipher (kx_text x)) remote psk version ++ opt_list psk
      | None => []
      end
  | _, _, _ => []
  end.
(* the data is a key, serialized *)
Definition wrap_public (P : prims) (s : option chain) (r : option node) (k : option ec_key) (pk : option cipher_key) (psk : option bytes) (version : N) (i : nat) : list bytes :=
  match pk with
  | Some p => match cipher_key_serialize (Some p) with
              | Some d => create_public P s r k (Some d) (exchange_cipher_matching_cipher (ck_cipher p)) psk version i
              | None => []
              end
  | None => []
  end.
Definition wrap_exposed (P : prims) (s : option chain) (r : option node) (k : option ec_key) (pk : option cipher_key) (psk : option bytes) (version : N) : list bytes :=
  match pk with Some p => create_exposed P s r k (exchange_cipher_matching_cipher (ck_cipher p)) psk version | None => [] end.
(* --- encryption of objects --- *)
(* the nonce *)
Definition nonce_of (P : prims) (key : option cipher_key) (s : nat) : list bytes := match key with Some k => drawn P s (iv_len (ck_cipher k)) | None => [] end.
(* with what kdf_cipher leaves *)
Definition protect_public (P : prims) (data : res bytes) (passphrase : option bytes) (s : nat) : list bytes :=
  match passphrase with
  | Some p => plain_of (fun b => kdf_cipher_public P KDF_SCRYPT_2_17 default_cipher b p s) data
  | None => []
  end.
Definition protect_exposed (P : prims) (passphrase : option bytes) (s : nat) : list bytes :=
  match passphrase with Some p => derived_now P KDF_SCRYPT_2_17 p s | None => [] end.
(* with what kdf_decipher leaves *)
Definition unprotect_public (P : prims) (public : bytes -> list bytes) (b passphrase : option bytes) : list bytes :=
  match b, passphrase with
  | Some x, Some p => kdf_decipher_public x p ++ plain_of public (kdf_decipher P (Some x) (Some p))
  | _, _ => []
  end.
Definition unprotect_exposed (P : prims) (b passphrase : option bytes) : list bytes :=
  match b, passphrase with Some x, Some p => kdf_decipher_derived P x p | _, _ => [] end.
Definition unprotect_leak (P : prims) (b passphrase : option bytes) : schedule -> Prop :=
  match b, passphrase with Some x, Some p => kdf_decipher_leak P x p | _, _ => never_leaks_op end.
(* the receiver's key, if there is one, is as the library makes keys *)
Definition receiver_made (r : option node) : Prop := forall x kp, r = Some x -> nd_keypair x = Some kp -> made_ec_key (kp_key kp).
(* the root keys from a recovery *)
Definition recovery_public (P : prims) (b : option bytes) (k : option cipher_key) : list bytes :=
  match b, k with
  | Some x, Some k =>
      sections x ++ plain_of (of_message pb_root_keys_unpack root_keys_fields (root_keys_public P))
        (rbind (cipher_result_from_buffer (Some x)) (fun c => aes256_decrypt P (Some c) None (Some k) true))
  | _, _ => []
  end.
(* and the recovery: the ciphertext *)
Definition making_public (P : prims) (g : option gen_result) (s : nat) : list bytes :=
  match g with
  | Some g => nonce_of P (Some (gr_recovery_key g)) s ++ plain_of cr_plain (fst (root_keys_export P (Some (gr_root_keys g)) (Some (gr_recovery_key g)) s))
  | None => []
  end.

(* --- packets --- *)
(* the recipient's exchange: after a failure its ciphertext may lack its text or tag *)
Definition found_dropped (pure : res key_exchange) (v : key_exchange) : Prop := exists x, pure = Val x /\ kx_dropped x v.
(* the content of a packet being made, its parts and its signature *)
Definition packet_public (P : prims) (header payload : option cipher_result) (key : option ec_key) (version : N) (s : nat) : list bytes :=
  match header, payload with
  | Some h, Some p =>
      match cipher_result_serialize (Some h), cipher_result_serialize (Some p) with
      | Some a, Some b => a :: b :: pb_packet_pack {| pq_header := a; pq_payload := b |} ::
          plain_of pt_plain (fst (packet_create_with_components P header payload key version s))
      | Some a, None => [a]
      | _, _ => []
      end
  | _, _ => []
  end.
(* what reading a packet leaves: its parts, the header's plaintext apart from the keys, the exchanges *)
Definition read_public (P : prims) (p : option packet) (s : option chain) : list bytes :=
  match p, s with
  | Some k, Some sender =>
      match pb_packet_unpack (pt_content k) with
      | None => []
      | Some m =>
          [] :: pq_header m :: pq_payload m :: sections (pq_header m) ++ sections (pq_payload m) ++
          plain_of (fun hc => plain_of (of_message pb_exchange_set_unpack exchange_set_fields exchange_set_public)
                                (aes256_decrypt P (Some hc) None (gen_header_key P (cr_cipher hc) sender) true) ++
                              plain_of xs_plain (exchange_set_create_from_cipher P (Some hc) (gen_header_key P (cr_cipher hc) sender)))
            (cipher_result_from_buffer (Some (pq_header m)))
      end
  | _, _ => []
  end.
(* a lesser answer: an error, or the recipient's exchange with its ciphertext incomplete; and a
   signature is not called valid if it is not *)
Definition read_worse (pure : res parse_result) (v : parse_result) : Prop :=
  (forall r, pure = Val r -> pa_status v = SIG_VALID -> pa_status r = SIG_VALID) /\
  ((exists st e, v = parse_failure st e /\ e <> E_SUCCESS) \/
   exists r x y, pure = Val r /\ pa_exchange r = Some x /\ kx_dropped x y /\
     v = {| pa_set := pa_set r; pa_exchange := Some y; pa_payload := pa_payload r; pa_status := pa_status r; pa_err := pa_err r |}).
(* the same from the bytes, with a copy of the sender's identity chain *)
Definition ctx_read_public (P : prims) (b : option bytes) (s : option chain) : list bytes :=
  match b with
  | Some x => sections x ++ plain_of (fun p => pt_plain p ++ read_public P (Some p) s ++ opt_plain ch_plain s ++ opt_plain ch_copy_plain s) (packet_create_from_buffer (Some x))
  | None => []
  end.
(* the packet is the one in the bytes; of the sender's identity chain a signature may be missing;
   the reading is the right one or a lesser one *)
Definition ctx_read_worse (P : prims) (b id : option bytes) (s : option chain) (v : ctx_packet) : Prop :=
  exists sender, s = Some sender /\ packet_create_from_buffer b = Val (cp_packet v) /\
    (cp_sender v = sender \/ ch_dropped sender (cp_sender v)) /\
    (parse_result_from_packet P (gen_header_key P) (Some (cp_packet v)) id s = Val (cp_parse v) \/
     read_worse (parse_result_from_packet P (gen_header_key P) (Some (cp_packet v)) id s) (cp_parse v)).
Definition ctx_read_leak (b : option bytes) (f : schedule) : Prop := some_failure f \/ exists x, b = Some x /\ odd_signature x.
(* what decoding leaves: what deriving the key leaves, the payload's message and its metadata *)
Definition decode_public (P : prims) (p : packet) (r : option parse_result) (dev_id : bytes) (k : option ec_key) (receiver : chain) (s : option chain) : list bytes :=
  match r, k with
  | Some a, Some key =>
      match pa_set a with
      | Some set =>
          derive_public s (Some (as_node dev_id receiver key)) (pt_version p) ++
          plain_of (fun pk => plain_of (of_message pb_payload_unpack payload_fields payload_public) (aes256_decrypt P (pa_payload a) None (Some pk) true) ++
                              plain_of py_plain (payload_create_from_cipher P (pa_payload a) (Some pk)))
            (exchange_derive_packet_key P s (Some (as_node dev_id receiver key)) (Some (xs_sender set)) (pa_exchange a) None (pt_version p))
      | None => []
      end
  | _, _ => []
  end.
Definition decode_exposed (P : prims) (p : packet) (r : option parse_result) (dev_id : bytes) (k : option ec_key) (receiver : chain) (s : option chain) : list bytes :=
  match r, k with
  | Some a, Some key =>
      match pa_set a with
      | Some set => derive_exposed P s (Some (as_node dev_id receiver key)) (Some (xs_sender set)) (pa_exchange a) None (pt_version p)
      | None => []
      end
  | _, _ => []
  end.
