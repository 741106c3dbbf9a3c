(* Rules for the functions of Model/HeapMessages.v. *)
From Verif.Base Require Import Bytes.
From Verif.Model Require Import Buffer Cipher Ecdsa Kdf Prims Engine Identity Node Stream TransportPacket EcdhCipher Handshake Transport Keys Payload Exchange Packet Ctx Heap HeapObjects HeapMessages.
From Verif.Spec Require Import HeapSpec HeapObjectSpec BufferSpec CopySpec.
From Verif.Proofs Require Import BufferFacts HeapFacts HeapObjectFacts.
From Coq Require Import Permutation ZifyBool ZifyNat ZifyN.

Arguments h_identity_create : simpl never.
Arguments h_identity_copy : simpl never.
Arguments h_identity_destroy : simpl never.
Arguments h_chain_create : simpl never.
Arguments h_chain_copy : simpl never.
Arguments h_chain_destroy : simpl never.
Arguments h_keypair_create : simpl never.
Arguments h_keypair_copy : simpl never.
Arguments h_keypair_destroy : simpl never.
Arguments h_node_create : simpl never.
Arguments h_node_copy : simpl never.
Arguments h_node_destroy : simpl never.
Arguments h_node_array_copy : simpl never.
Arguments h_node_array_release : simpl never.
Arguments h_packet_meta_create : simpl never.
Arguments h_packet_meta_copy : simpl never.
Arguments h_packet_meta_destroy : simpl never.
Arguments h_payload_create : simpl never.
Arguments h_payload_copy : simpl never.
Arguments h_payload_destroy : simpl never.
Arguments h_key_exchange_create : simpl never.
Arguments h_key_exchange_copy : simpl never.
Arguments h_key_exchange_destroy : simpl never.
Arguments h_exchange_array_copy : simpl never.
Arguments h_exchange_array_destroy : simpl never.
Arguments h_exchange_set_create : simpl never.
Arguments h_exchange_set_copy : simpl never.
Arguments h_exchange_set_destroy : simpl never.
Arguments h_packet_create : simpl never.
Arguments h_packet_copy : simpl never.
Arguments h_packet_destroy : simpl never.
Arguments h_parse_result_create : simpl never.
Arguments h_parse_result_copy : simpl never.
Arguments h_parse_result_destroy : simpl never.
Arguments h_decode_result_create : simpl never.
Arguments h_decode_result_copy : simpl never.
Arguments h_decode_result_destroy : simpl never.
Arguments h_encoder_result_create : simpl never.
Arguments h_encoder_result_copy : simpl never.
Arguments h_encoder_result_destroy : simpl never.
Arguments h_root_keys_create : simpl never.
Arguments h_root_keys_copy : simpl never.
Arguments h_root_keys_destroy : simpl never.
Arguments h_storage_keys_create : simpl never.
Arguments h_storage_keys_copy : simpl never.
Arguments h_storage_keys_destroy : simpl never.
Arguments h_dev_info_create : simpl never.
Arguments h_dev_info_copy : simpl never.
Arguments h_dev_info_destroy : simpl never.
Arguments h_stream_key_create : simpl never.
Arguments h_stream_key_copy : simpl never.
Arguments h_stream_key_destroy : simpl never.
Arguments h_stream_iv_copy : simpl never.
Arguments h_stream_iv_destroy : simpl never.
Arguments h_stream_ctx_copy : simpl never.
Arguments h_stream_ctx_destroy : simpl never.
Arguments h_root_key_create : simpl never.
Arguments h_root_key_copy : simpl never.
Arguments h_root_key_destroy : simpl never.
Arguments h_tpacket_create : simpl never.
Arguments h_tpacket_copy : simpl never.
Arguments h_tpacket_destroy : simpl never.
Arguments h_ecdh_ctx_create_key : simpl never.
Arguments h_ecdh_ctx_copy : simpl never.
Arguments h_ecdh_ctx_destroy : simpl never.
Arguments h_handshake_res_create : simpl never.
Arguments h_handshake_res_copy : simpl never.
Arguments h_handshake_res_destroy : simpl never.
Arguments h_packet_list_copy : simpl never.
Arguments h_packet_list_destroy : simpl never.
Arguments h_handshake_create_list : simpl never.
Arguments h_handshake_destroy : simpl never.
Arguments h_handshake_copy : simpl never.
Arguments h_transport_copy : simpl never.
Arguments h_transport_destroy : simpl never.
Arguments h_ctx_destroy : simpl never.
Arguments h_gen_result_create : simpl never.
Arguments h_gen_result_destroy : simpl never.
Arguments h_digest : simpl never.
Arguments h_gen_header_key : simpl never.
Arguments h_ctx_create : simpl never.
Arguments h_ctx_copy : simpl never.
Arguments h_gen_result_copy : simpl never.
Arguments h_ctx_packet_destroy : simpl never.
Arguments id_cells : simpl never.
Arguments ch_cells : simpl never.
Arguments kp_cells : simpl never.
Arguments nd_cells : simpl never.
Arguments me_cells : simpl never.
Arguments py_cells : simpl never.
Arguments kx_cells : simpl never.
Arguments xa_cells : simpl never.
Arguments xs_cells : simpl never.
Arguments pt_cells : simpl never.
Arguments pa_cells : simpl never.
Arguments de_cells : simpl never.
Arguments en_cells : simpl never.
Arguments rk_cells : simpl never.
Arguments sk_cells : simpl never.
Arguments di_cells : simpl never.
Arguments st_cells : simpl never.
Arguments si_cells : simpl never.
Arguments sc_cells : simpl never.
Arguments tr_cells : simpl never.
Arguments tp_cells : simpl never.
Arguments ex_cells : simpl never.
Arguments hr_cells : simpl never.
Arguments pl_cells : simpl never.
Arguments hs_cells : simpl never.
Arguments tc_cells : simpl never.
Arguments cx_cells : simpl never.
Arguments gr_cells : simpl never.
Arguments cp_cells : simpl never.
Arguments id_plain : simpl never.
Arguments ch_plain : simpl never.
Arguments kp_plain : simpl never.
Arguments nd_plain : simpl never.
Arguments nodes_plain : simpl never.
Arguments me_plain : simpl never.
Arguments py_plain : simpl never.
Arguments kx_plain : simpl never.
Arguments xa_plain : simpl never.
Arguments xs_plain : simpl never.
Arguments pt_plain : simpl never.
Arguments pa_plain : simpl never.
Arguments de_plain : simpl never.
Arguments en_plain : simpl never.
Arguments st_plain : simpl never.
Arguments si_plain : simpl never.
Arguments sc_plain : simpl never.
Arguments tp_plain : simpl never.
Arguments hr_plain : simpl never.
Arguments pl_plain : simpl never.
Arguments hs_plain : simpl never.
Arguments tc_plain : simpl never.
Arguments cx_plain : simpl never.
Arguments gr_plain : simpl never.
Arguments cp_plain : simpl never.
#[export] Hint Unfold id_copy_plain ch_copy_plain kp_copy_plain nd_copy_plain nodes_copy_plain xa_copy_plain xs_copy_plain pa_copy_plain rk_copy_plain tp_copy_plain ex_copy_plain pl_copy_plain hs_copy_plain tc_copy_plain cx_copy_plain gr_copy_plain : plains.
#[export] Hint Unfold h_identity_create h_chain_create h_keypair_create h_node_create h_packet_meta_create h_payload_create h_key_exchange_create h_exchange_set_create h_packet_create h_parse_result_create h_decode_result_create h_encoder_result_create h_root_keys_create h_storage_keys_create h_dev_info_create h_stream_key_create h_root_key_create h_tpacket_create h_ecdh_ctx_create_key h_handshake_res_create h_handshake_create_list h_gen_result_create : creates.
#[export] Hint Unfold hs_keep tc_keep : keeps.
#[export] Hint Unfold MAX_IDENTIFIER_LEN PACKET_PER_EVO_MIN PACKET_PER_EVO_MAX : made.

Lemma part_plain {V} (rel : V -> V -> Prop) (plain : V -> list bytes) o o' : PlainRel rel plain -> part_rel rel o o' -> incl (opt_plain plain o') (opt_plain plain o).
Proof. intros P [|v v' R]; [exact (fun c I => I)|exact (P v v' R)]. Qed.
Ltac plain_part c I :=
  first [solve [in_tac]
        |match goal with R : ?r ?a ?b |- _ => lazymatch type of I with In c (?p b) => apply (plain_rel (rel := r) (plain := p) _ _ R) in I; solve [in_tac] end end
        |match goal with R : part_rel ?r ?a ?b |- _ => lazymatch type of I with In c (opt_plain ?p b) => apply (part_plain r p _ _ (plain_rel (rel := r) (plain := p)) R) in I; solve [in_tac] end end].
Ltac plain_rel_tac :=
  let v := fresh "v" in let v' := fresh "v" in let R := fresh "R" in let c := fresh "c" in let I := fresh "I" in
  match goal with |- PlainRel ?r ?p => intros v v' R c I; unfold r in R; unfold p in I |- *; unfold may_lack in R end;
  repeat match goal with H : _ /\ _ |- _ => destruct H end;
  repeat match goal with H : _ \/ _ |- _ => destruct H end;
  repeat match goal with H : _ = _ |- _ => rewrite H in I; clear H end;
  rewrite ?in_app_iff in I; cbn in I; rewrite ?in_app_iff in I; split_or I; plain_part c I.
#[export] Instance cipher_result_plain_rel : PlainRel result_dropped cr_plain.
Proof. plain_rel_tac. Qed.

#[export] Instance identity_destroy_rule : Destroys h_identity_destroy id_cells id_value id_plain.
Proof. start_destroy h_identity_destroy id_cells. all: wgo. Qed.
#[export] Instance identity_plain_rel : PlainRel id_dropped id_plain.
Proof. plain_rel_tac. Qed.
#[export] Instance identity_copy_rule : Copies h_identity_copy id_cells id_value whole id_dropped made_identity id_copy_plain
  [T_ec_key; T_ecdsa_result] false true.
Proof. start_copy h_identity_copy id_cells. all: wgo. Qed.
#[export] Instance chain_destroy_rule : Destroys h_chain_destroy ch_cells ch_value ch_plain.
Proof. start_destroy h_chain_destroy ch_cells. all: wgo. Qed.
#[export] Instance chain_plain_rel : PlainRel ch_dropped ch_plain.
Proof. plain_rel_tac. Qed.
#[export] Instance chain_copy_rule : Copies h_chain_copy ch_cells ch_value whole ch_dropped made_chain ch_copy_plain
  [T_ec_key; T_ecdsa_result] false true.
Proof. start_copy h_chain_copy ch_cells. all: wgo. Qed.
#[export] Instance keypair_destroy_rule : Destroys h_keypair_destroy kp_cells kp_value kp_plain.
Proof. start_destroy h_keypair_destroy kp_cells. all: wgo. Qed.
#[export] Instance keypair_copy_rule : Copies h_keypair_copy kp_cells kp_value whole exact_copy made_keypair kp_copy_plain
  [T_ec_key; T_ecdsa_result] false false.
Proof. start_copy h_keypair_copy kp_cells. all: wgo. Qed.
#[export] Instance node_destroy_rule : Destroys h_node_destroy nd_cells nd_value nd_plain.
Proof. start_destroy h_node_destroy nd_cells. all: wgo. Qed.
#[export] Instance node_plain_rel : PlainRel nd_dropped nd_plain.
Proof. plain_rel_tac. Qed.
#[export] Instance node_copy_rule : Copies h_node_copy nd_cells nd_value whole nd_dropped made_node nd_copy_plain
  [T_ec_key; T_ecdsa_result] false true.
Proof. start_copy h_node_copy nd_cells. all: wgo. Qed.
#[export] Instance packet_meta_destroy_rule : Destroys h_packet_meta_destroy me_cells me_value me_plain.
Proof. start_destroy h_packet_meta_destroy me_cells. all: wgo. Qed.
#[export] Instance packet_meta_copy_rule : Copies h_packet_meta_copy me_cells me_value whole exact_copy made_packet_meta me_plain
  [T_packet_meta] false false.
Proof. start_copy h_packet_meta_copy me_cells. all: wgo. Qed.
#[export] Instance payload_destroy_rule : Destroys h_payload_destroy py_cells py_value py_plain.
Proof. start_destroy h_payload_destroy py_cells. all: wgo. Qed.
#[export] Instance payload_copy_rule : Copies h_payload_copy py_cells py_value whole exact_copy made_payload py_plain
  [T_packet_meta] false false.
Proof. start_copy h_payload_copy py_cells. all: wgo. Qed.
#[export] Instance key_exchange_destroy_rule : Destroys h_key_exchange_destroy kx_cells kx_value kx_plain.
Proof. start_destroy h_key_exchange_destroy kx_cells. all: wgo. Qed.
#[export] Instance key_exchange_plain_rel : PlainRel kx_dropped kx_plain.
Proof. plain_rel_tac. Qed.
#[export] Instance key_exchange_copy_rule : Copies h_key_exchange_copy kx_cells kx_value whole kx_dropped made_key_exchange kx_plain
  [T_cipher_result; T_key_exchange] true true.
Proof. start_copy h_key_exchange_copy kx_cells. all: wgo. Qed.
#[export] Instance exchange_array_destroy_rule : Destroys h_exchange_array_destroy xa_cells xa_value xa_plain.
Proof. exact (array_destroy_has kx_cells kx_value h_key_exchange_destroy kx_plain key_exchange_destroy_rule). Qed.
#[export] Instance exchange_array_plain_rel : PlainRel xa_dropped xa_plain.
Proof. intros l l' R. exact (all_public_rel kx_dropped kx_plain _ _ key_exchange_plain_rel R). Qed.
#[export] Instance exchange_array_copy_rule : Copies h_exchange_array_copy xa_cells xa_value whole xa_dropped (made_items made_key_exchange) xa_copy_plain
  [T_cipher_result; T_key_exchange] true true.
Proof.
  exact (array_copy_has kx_cells kx_value h_key_exchange_copy h_key_exchange_destroy kx_dropped made_key_exchange kx_plain
    [T_cipher_result; T_key_exchange] true true kx_plain key_exchange_copy_rule key_exchange_destroy_rule key_exchange_plain_rel).
Qed.
#[export] Instance exchange_set_destroy_rule : Destroys h_exchange_set_destroy xs_cells xs_value xs_plain.
Proof. start_destroy h_exchange_set_destroy xs_cells. all: wgo. Qed.
#[export] Instance exchange_set_plain_rel : PlainRel xs_dropped xs_plain.
Proof. plain_rel_tac. Qed.
#[export] Instance exchange_set_copy_rule : Copies h_exchange_set_copy xs_cells xs_value whole xs_dropped fits_exchange_set xs_copy_plain
  [T_ec_key; T_cipher_result; T_key_exchange] true true.
Proof. start_copy h_exchange_set_copy xs_cells. all: wgo. Qed.
#[export] Instance packet_destroy_rule : Destroys h_packet_destroy pt_cells pt_value pt_plain.
Proof. start_destroy h_packet_destroy pt_cells. all: wgo. Qed.
#[export] Instance packet_copy_rule : Copies h_packet_copy pt_cells pt_value whole exact_copy made_packet pt_plain
  [T_ecdsa_result] false false.
Proof. start_copy h_packet_copy pt_cells. all: wgo. Qed.
#[export] Instance encoder_result_destroy_rule : Destroys h_encoder_result_destroy en_cells en_value en_plain.
Proof. start_destroy h_encoder_result_destroy en_cells. all: wgo. Qed.
#[export] Instance encoder_result_copy_rule : Copies h_encoder_result_copy en_cells en_value whole exact_copy made_encoder_result en_plain
  [T_cipher_key; T_ecdsa_result] false false.
Proof. start_copy h_encoder_result_copy en_cells. all: wgo. Qed.
#[export] Instance root_keys_destroy_rule : Destroys h_root_keys_destroy rk_cells rk_value nothing.
Proof. start_destroy h_root_keys_destroy rk_cells. all: wgo. Qed.
#[export] Instance root_keys_copy_rule : Copies h_root_keys_copy rk_cells rk_value whole exact_copy made_root_keys rk_copy_plain
  [T_ec_key; T_cipher_key] false false.
Proof. start_copy h_root_keys_copy rk_cells. all: wgo. Qed.
#[export] Instance storage_keys_destroy_rule : Destroys h_storage_keys_destroy sk_cells sk_value nothing.
Proof. start_destroy h_storage_keys_destroy sk_cells. all: wgo. Qed.
#[export] Instance storage_keys_copy_rule : Copies h_storage_keys_copy sk_cells sk_value whole exact_copy made_storage_keys nothing
  [T_cipher_key] false false.
Proof. start_copy h_storage_keys_copy sk_cells. all: wgo. Qed.
#[export] Instance dev_info_destroy_rule : Destroys h_dev_info_destroy di_cells di_value nothing.
Proof. start_destroy h_dev_info_destroy di_cells. all: wgo. Qed.
#[export] Instance dev_info_copy_rule : Copies h_dev_info_copy di_cells di_value whole exact_copy made_dev_info nothing
  [] false false.
Proof. start_copy h_dev_info_copy di_cells. all: wgo. Qed.
#[export] Instance stream_key_destroy_rule : Destroys h_stream_key_destroy st_cells st_value st_plain.
Proof. start_destroy h_stream_key_destroy st_cells. all: wgo. Qed.
#[export] Instance stream_key_copy_rule : Copies h_stream_key_copy st_cells st_value whole exact_copy made_stream_key st_plain
  [T_cipher_key] false false.
Proof. start_copy h_stream_key_copy st_cells. all: wgo. Qed.
#[export] Instance stream_iv_destroy_rule : Destroys h_stream_iv_destroy si_cells si_value si_plain.
Proof. start_destroy h_stream_iv_destroy si_cells. all: wgo. Qed.
#[export] Instance stream_iv_copy_rule : Copies h_stream_iv_copy si_cells si_value whole exact_copy made_stream_iv si_plain
  [] false false.
Proof. start_copy h_stream_iv_copy si_cells. all: wgo. Qed.
#[export] Instance stream_ctx_destroy_rule : Destroys h_stream_ctx_destroy sc_cells sc_value sc_plain.
Proof. start_destroy h_stream_ctx_destroy sc_cells. all: wgo. Qed.
#[export] Instance stream_ctx_plain_rel : PlainRel sc_dropped sc_plain.
Proof. plain_rel_tac. Qed.
#[export] Instance stream_ctx_copy_rule : Copies h_stream_ctx_copy sc_cells sc_value whole sc_dropped made_stream_ctx sc_plain
  [T_cipher_key] false true.
Proof. start_copy h_stream_ctx_copy sc_cells. all: wgo. Qed.
#[export] Instance root_key_destroy_rule : Destroys h_root_key_destroy tr_cells tr_value nothing.
Proof. start_destroy h_root_key_destroy tr_cells. all: wgo. Qed.
#[export] Instance root_key_copy_rule : Copies h_root_key_copy tr_cells tr_value whole exact_copy made_root_key nothing
  [] false false.
Proof. start_copy h_root_key_copy tr_cells. all: wgo. Qed.
#[export] Instance tpacket_destroy_rule : Destroys h_tpacket_destroy tp_cells tp_value tp_plain.
Proof. start_destroy h_tpacket_destroy tp_cells. all: wgo. Qed.
#[export] Instance tpacket_plain_rel : PlainRel tp_detached tp_plain.
Proof. intros v v' -> c I. unfold tp_plain, detached in *. cbn in I. in_tac. Qed.
#[export] Instance tpacket_copy_rule : Copies h_tpacket_copy tp_cells tp_value detached tp_detached made_tpacket tp_copy_plain
  [] false false.
Proof. start_copy h_tpacket_copy tp_cells. all: wgo. Qed.
#[export] Instance ecdh_ctx_destroy_rule : Destroys h_ecdh_ctx_destroy ex_cells ex_value nothing.
Proof. start_destroy h_ecdh_ctx_destroy ex_cells. all: wgo. Qed.
#[export] Instance ecdh_ctx_copy_rule : Copies h_ecdh_ctx_copy ex_cells ex_value whole exact_copy made_ecdh_ctx ex_copy_plain
  [T_ec_key] false false.
Proof. start_copy h_ecdh_ctx_copy ex_cells. all: wgo. Qed.
#[export] Instance handshake_res_destroy_rule : Destroys h_handshake_res_destroy hr_cells hr_value hr_plain.
Proof. start_destroy h_handshake_res_destroy hr_cells. all: wgo. Qed.
#[export] Instance handshake_res_copy_rule : Copies h_handshake_res_copy hr_cells hr_value whole exact_copy made_handshake_res hr_plain
  [T_cipher_key] false false.
Proof. start_copy h_handshake_res_copy hr_cells. all: wgo. Qed.
#[export] Instance decode_result_destroy_rule : Destroys h_decode_result_destroy de_cells de_value de_plain.
Proof. start_destroy h_decode_result_destroy de_cells. all: wgo. Qed.
#[export] Instance decode_result_plain_rel : PlainRel de_dropped de_plain.
Proof. plain_rel_tac. Qed.
#[export] Instance decode_result_copy_rule : Copies h_decode_result_copy de_cells de_value whole de_dropped made_decode_result de_plain
  [T_packet_meta; T_cipher_key] true true.
Proof. start_copy h_decode_result_copy de_cells. all: wgo. Qed.
#[export] Instance parse_result_destroy_rule : Destroys h_parse_result_destroy pa_cells pa_value pa_plain.
Proof. start_destroy h_parse_result_destroy pa_cells. all: wgo. Qed.
#[export] Instance parse_result_copy_rule : Copies h_parse_result_copy pa_cells pa_value whole pa_dropped fits_parse_result pa_copy_plain
  [T_ec_key; T_cipher_result; T_key_exchange] true true.
Proof. start_copy h_parse_result_copy pa_cells. all: wgo. Qed.
#[export] Instance node_array_destroy_rule : Destroys h_node_array_release (arr_cells nd_cells) (arr_value nd_value) nodes_plain.
Proof. exact (array_destroy_has nd_cells nd_value h_node_destroy nd_plain node_destroy_rule). Qed.
#[export] Instance node_array_copy_rule : Copies h_node_array_copy (arr_cells nd_cells) (arr_value nd_value) whole nodes_dropped (made_items made_node)
  nodes_copy_plain [T_ec_key; T_ecdsa_result] false true.
Proof.
  exact (array_copy_has nd_cells nd_value h_node_copy h_node_destroy nd_dropped made_node nd_copy_plain [T_ec_key; T_ecdsa_result] false true nd_plain
    node_copy_rule node_destroy_rule node_plain_rel).
Qed.
(* the array alone *)
Lemma node_array_shallow_rule : destroy_rule (arr_cells (fun _ : hnd => [])) (arr_value nd_value) (all_public nothing) h_node_array_destroy.
Proof.
  apply (array_destroy_has (fun _ : hnd => []) nd_value (fun _ => hret tt) nothing). split; [reflexivity|].
  intros secret U W fails h0 X h t Q E _ G. unfold hret, wp. apply G. exact E.
Qed.
#[export] Instance packet_list_destroy_rule : Destroys h_packet_list_destroy pl_cells pl_value pl_plain.
Proof. exact (array_destroy_has buf_cells b_bytes h_buffer_destroy (fun b => [b]) buffer_destroy_rule). Qed.
Lemma part_exact {V} (o o' : option V) : part_rel exact_copy o o' -> o' = o.
Proof. intros [|v v' R]; [reflexivity|rewrite R; reflexivity]. Qed.
Lemma parts_exact {V} (l l' : list (option V)) : Forall2 (part_rel exact_copy) l l' -> l' = l.
Proof. intros F. induction F as [|a b l l' R F IH]; [reflexivity|]. rewrite IH, (part_exact _ _ R). reflexivity. Qed.
#[export] Instance packet_list_copy_rule : Copies h_packet_list_copy pl_cells pl_value whole exact_copy (made_items real) pl_copy_plain [] false false.
Proof.
  assert (S : forall v v' : bytes, v' = v -> incl [v'] [v]) by (intros v v' ->; exact (fun c I => I)).
  pose proof (array_copy_has buf_cells b_bytes h_buffer_copy h_buffer_destroy exact_copy real nothing [] false false (fun b => [b])
    buffer_copy_rule buffer_destroy_rule S) as (N & R).
  split; [exact N|]. intros secret U W D fails h0 X h t Q HU HW HD E M K QN QS.
  refine (R secret U W D fails h0 X h t Q HU HW HD E M K QN _). intros t' h1 E1 F A. apply QS; [exact E1|exact (parts_exact _ _ F)|exact A].
Qed.
#[export] Instance handshake_destroy_rule : Destroys h_handshake_destroy hs_cells hs_value hs_plain.
Proof. start_destroy h_handshake_destroy hs_cells. all: wgo. Qed.
Lemma node_array_shallow_sound : destroys_in_memory (arr_cells (fun _ : hnd => [])) nothing h_node_array_destroy.
Proof.
  destruct (destroy_rule_sound _ _ _ _ node_array_shallow_rule) as (N & R). split; [exact N|]. intros secret fails h t OK M K.
  apply R; [exact OK|exact M|]. split; [exact (proj1 K)|]. intros c I. exfalso. unfold all_public in I. apply in_flat_map in I.
  destruct I as (o & _ & I). apply in_flat_map in I. destruct I as (v & _ & I). exact I.
Qed.
