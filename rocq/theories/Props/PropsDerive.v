(* C79, and further parts of C39, C48 and C59 *)
From Verif.Base Require Import Bytes Monad.
From Verif.Model Require Import Buffer Cipher Ecdsa Kdf Prims Engine Identity Node Keys EcdhCipher Payload Exchange Packet Ctx.
From Verif.Spec Require Import BufferSpec CodecSpec EngineSpec IdentitySpec KeysSpec MessageSpec CtxSpec DeriveSpec.
From Verif.Proofs Require Import BytesFacts CodecFacts EngineFacts IdentityFacts IdentityProps ToyPrims ToyObjects KeysFacts MessageFacts PacketFacts CtxFacts DeriveFacts.
From Verif.Props Require Import PropsMessage PropsCtx.
Local Open Scope N_scope.

(* C79 *)
(* an agreed key has the cipher of the context and is derived from the shared secret of the two keys,
   the salt and the information given, by the algorithm given *)
Theorem C79_agreed_key : forall P x r k ck, ecdh_gen_cipher_key P x (Some r) (Some k) = Val ck ->
  ck_cipher ck = ex_cipher x /\
  exists secret, gen_shared_secret P (Some (ex_local x)) (Some r) = Some secret /\
    agreed P secret (km_salt k) (km_info k) 32 (ck_data ck) (ka_id (km_algo k)).
Proof. exact gen_key_agreed. Qed.
Print Assumptions C79_agreed_key.
(* what a sender makes for a recipient is the serialized packet key under the key of the exchange *)
Theorem C79_sender : forall P s r ek pk psk v st x st', exchange_create_with_packet_key P (Some s) (Some r) (Some ek) (Some pk) psk v st = (Val x, st') ->
  exists kp secret key ser, nd_keypair r = Some kp /\ gen_shared_secret P (Some ek) (Some (kp_key kp)) = Some secret /\
    exchange_key P secret psk s r v key /\ cipher_key_serialize (Some pk) = Some ser /\
    kx_id x = id_identifier (ch_node (nd_chain r)) /\ kx_key_id x = kp_identifier kp /\
    cr_cipher (kx_text x) = AES256_CTR /\ p_rand P st 16 = Some (cr_iv (kx_text x)) /\ cr_text (kx_text x) = Some (p_ctr P key (cr_iv (kx_text x)) ser).
Proof. exact exchange_made_of. Qed.
Print Assumptions C79_sender.
(* a packet key obtained by a recipient was decrypted under the key of the exchange *)
Theorem C79_recipient : forall P s r ek x psk v pk, exchange_derive_packet_key P (Some s) (Some r) (Some ek) (Some x) psk v = Val pk ->
  exists kp secret key b, nd_keypair r = Some kp /\ gen_shared_secret P (Some (kp_key kp)) (Some ek) = Some secret /\
    exchange_key P secret psk s r v key /\
    aes256_decrypt P (Some (kx_text x)) None (Some {| ck_cipher := cr_cipher (kx_text x); ck_data := key |}) false = Val b /\
    cipher_key_from_buffer (Some b) = Val pk.
Proof. exact packet_key_opened_of. Qed.
Print Assumptions C79_recipient.
Example C79_case : (exists x st, exchange_create_with_packet_key toy (Some (toy_chain 1)) (Some (public_node (toy_node 3))) (Some (toy_key 50)) (Some demo_key) (Some [x70]) 4 5%nat = (Val x, st)) /\
  psk_case (Some [x70]) (Some [x70]) 2 = Val demo_key /\ psk_case (Some [x70]) (Some [x70]) 3 = Val demo_key /\
  (exists ck, ecdh_gen_cipher_key toy {| ex_local := toy_key 1; ex_cipher := AES256_GCM |} (Some (public_key (toy_key 2)))
     (Some {| km_algo := KDF_HKDF_SHA384; km_salt := Some [x01]; km_info := Some [x02; x03] |}) = Val ck).
Proof. split; [eexists; eexists; vm_compute; reflexivity|]. split; [vm_compute; reflexivity|]. split; [vm_compute; reflexivity|]. eexists. vm_compute. reflexivity. Qed.

(* C39: nothing is decoded from a parse that failed or whose signature did not verify *)
Theorem C39_decode_only_verified : forall P p a dev rk rc s d, decode_result_from_parse_result P p (Some a) dev (Some rk) rc s = Val d ->
  pa_err a = E_SUCCESS /\ pa_status a = SIG_VALID.
Proof. exact decode_verified. Qed.
Print Assumptions C39_decode_only_verified.

(* C48: what reading stored keys accepts; a newer version is refused *)
Theorem C48_storage_keys_accepted : forall b k, storage_keys_create_from_buffer (Some b) = Val k ->
  exists l r, pb_storage_keys_unpack b = Some {| ps_version := 1; ps_local := Some l; ps_remote := Some r |} /\
    cipher_key_from_buffer (Some l) = Val (sk_local k) /\ cipher_key_from_buffer (Some r) = Val (sk_remote k).
Proof. exact storage_keys_read_of. Qed.
Print Assumptions C48_storage_keys_accepted.
Theorem C48_root_keys_accepted : forall P b k, root_keys_create_from_buffer P (Some b) = Val k ->
  exists v n r s, pb_root_keys_unpack b = Some {| pr_version := v; pr_node := Some n; pr_remote := Some r; pr_signature := s |} /\ v <= 1 /\
    cipher_key_from_buffer (Some n) = Val (rk_node k) /\ cipher_key_from_buffer (Some r) = Val (rk_remote k) /\
    ec_key_import P (Some (or_none s)) true = Some (rk_signature k).
Proof. exact root_keys_read_of. Qed.
Print Assumptions C48_root_keys_accepted.
Example C48_accepted_case : (exists b, root_keys_serialize (Some demo_root) = Val b /\ root_keys_create_from_buffer toy (Some b) = Val demo_root) /\
  (exists b, storage_keys_serialize (Some (cx_storage demo_ctx)) = Val b /\ storage_keys_create_from_buffer (Some b) = Val (cx_storage demo_ctx)) /\
  storage_keys_create_from_buffer (Some (pb_storage_keys_pack {| ps_version := 2; ps_local := cipher_key_serialize (Some demo_key); ps_remote := cipher_key_serialize (Some demo_key) |})) = Null.
Proof. split; [eexists; split; [vm_compute; reflexivity|]; vm_compute; reflexivity|]. split; [eexists; split; [vm_compute; reflexivity|]; vm_compute; reflexivity|]. vm_compute. reflexivity. Qed.

(* C59: a context made with a given signature key, and the key pairs made with a context *)
Theorem C59_generated_with_key : forall P i sk id s g s', ec_ok P -> gen_ok P -> sign_ok P -> sha_ok P -> rand_ok P -> engine_pair P sk ->
  ctx_gen_new_with_sig_key P (Some i) (Some sk) (Some id) s = (Val g, s') ->
  exists k, good_root_keys P k /\ rk_signature k = sk /\ generated P i k id g.
Proof. exact new_sig_inv. Qed.
Print Assumptions C59_generated_with_key.
Theorem C59_context_keypair : forall P c i s k s', ec_ok P -> gen_ok P -> sign_ok P -> engine_key P (id_key (ch_node (cx_chain c))) ->
  ctx_ephemeral_keypair_gen P (Some c) i s = (Val k, s') ->
  kp_identifier k = i /\ engine_key P (kp_key k) /\ ek_pri (kp_key k) <> None /\ keypair_verify_owner P (Some k) (Some (ch_node (cx_chain c))) = true.
Proof. exact ctx_keypair_gen_ok. Qed.
Print Assumptions C59_context_keypair.
Example C59_context_case : (exists g s, ctx_gen_new_with_sig_key toy (Some (device x11)) (Some (toy_key 3)) (Some [x61]) 5%nat = (Val g, s)) /\
  (exists k s, ctx_ephemeral_keypair_gen toy (Some demo_ctx) 7 5%nat = (Val k, s)).
Proof. split; eexists; eexists; vm_compute; reflexivity. Qed.
