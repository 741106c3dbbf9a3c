(* Rules for the functions of Model/HeapMessages.v, continued: contexts. *)
From Verif.Base Require Import Bytes.
From Verif.Model Require Import Buffer Cipher Ecdsa Kdf Prims Engine Identity Node Stream TransportPacket EcdhCipher Handshake Transport Keys Payload Exchange Packet Ctx Heap HeapObjects HeapMessages.
From Verif.Spec Require Import HeapSpec HeapObjectSpec BufferSpec CopySpec.
From Verif.Proofs Require Import BufferFacts HeapFacts HeapObjectFacts HeapMessageFacts HeapTransportFacts.
From Coq Require Import Permutation ZifyBool ZifyNat ZifyN.

#[export] Instance ctx_destroy_rule : Destroys h_ctx_destroy cx_cells cx_value cx_plain.
Proof. start_destroy h_ctx_destroy cx_cells. all: wgo. Qed.
#[export] Instance gen_result_destroy_rule : Destroys h_gen_result_destroy gr_cells gr_value gr_plain.
Proof. start_destroy h_gen_result_destroy gr_cells. all: wgo. Qed.
#[export] Instance ctx_packet_destroy_rule : Destroys h_ctx_packet_destroy cp_cells cp_value cp_plain.
Proof. start_destroy h_ctx_packet_destroy cp_cells. all: wgo. Qed.

Definition buffer_fails (fails : schedule) : Prop := (exists n, fails n T_buffer = true) \/ exists n, fails n T_data = true.
Lemma buffer_create_wp secret (U W : Prop) fails h0 X h v (Q : option hbuf -> heap -> Prop) :
  real v -> ext secret W h0 X h -> keeps_secret secret [] ->
  (forall h1, ext secret W h0 X h1 -> buffer_fails fails -> Q None h1) ->
  (forall b h1, ext secret W h0 (buf_cells b ++ X) h1 -> b_bytes b = v -> Q (Some b) h1) ->
  wp U fails (h_buffer_create v) h Q.
Proof.
  intros L E K QN QS. unfold h_buffer_create, h_buffer_create_empty. apply size_real in L.
  replace ((MAX_BUFFER_SIZE <? blen v) || (blen v =? 0))%N with false by lia.
  wstep. wstep. wstep.
  - wstep. wstep. apply QN; [assumption|left; assumption].
  - wstep. at_heap ltac:(fun E => eapply wp_alloc; [exact E|intros h2 E2 F; clear E|intros d h2 E2; clear E]).
    + wstep. wstep. apply QN; [assumption|right; assumption].
    + wstep. cbn [b_data b_addr]. wstep. eapply wp_store; [exact E2| |].
      * unfold blen. rewrite repeat_length. unfold blen in L. lia.
      * intros h3 E3. wstep. apply QS; [|reflexivity]. unfold buf_cells. cbn [b_addr b_data b_bytes]. eapply ext_perm; [|exact E3]. solve_perm.
Qed.

Lemma Some_inj' {A} (a b : A) : Some a = Some b -> a = b.
Proof. intros E. injection E as E. exact E. Qed.
Section ctx.
  Context (P : prims) (Sized : digests_sized P).

  Lemma header_key_wp secret (U W : Prop) fails h0 X h ch (Q : option hck -> heap -> Prop) :
    ext secret W h0 (ch_cells ch ++ X) h -> keeps_secret secret [] ->
    (forall n ty, In ty [T_cipher_key; T_buffer; T_data] -> fails n ty = true -> U) ->
    (forall k h1, ext secret W h0 (ck_cells k ++ ch_cells ch ++ X) h1 -> gen_header_key P default_cipher (ch_value ch) = Some (ck_value k) ->
      Q (Some k) h1) ->
    wp U fails (h_gen_header_key P default_cipher ch) h Q.
  Proof.
    intros E K HU QS.
    assert (G : exists Y, Permutation (ch_cells ch ++ X) (struct_cell (hch_addr ch) ++ struct_cell (hid_addr (hch_root ch)) ++
      struct_cell (hid_addr (hch_node ch)) ++ buf_cells (hid_identifier (hch_root ch)) ++ buf_cells (hid_identifier (hch_node ch)) ++ Y)).
    { exists (key_cells (hid_key (hch_root ch)) ++ cells_opt sig_cells (hid_sig (hch_root ch)) ++
        key_cells (hid_key (hch_node ch)) ++ cells_opt sig_cells (hid_sig (hch_node ch)) ++ cells_opt buf_cells (hch_cache ch) ++ X).
      unfold ch_cells, id_cells. rewrite <- ?app_assoc. solve_perm. }
    destruct G as (Y & G). apply (ext_perm _ _ _ _ _ _ G) in E.
    unfold h_gen_header_key, h_digest. repeat wstep.
    unfold sha2. cbn [obytes]. wstep.
    eapply buffer_create_wp; [|exact E|exact K| |].
    - unfold digest_matching_cipher. unfold real, within_limit, library_limit. rewrite Sized. lia.
    - intros h1 E1 [F|F]; untested_tac.
    - intros b h1 E1 V. unfold digest_matching_cipher in V. wstep. wstep. unfold h_cipher_key_create. wstep. wstep.
      assert (L : blen (b_bytes b) = 32%N) by (rewrite V; apply Sized). rewrite L. cbn [key_len default_cipher]. change (32 =? 32)%N with true. cbv iota.
      wstep. wstep; [untested_tac|]. wstep. wstep. apply QS.
      + unfold ck_cells. cbn [hck_addr hck_data]. eapply ext_perm; [|exact E0].
        eapply Permutation_trans; [|apply Permutation_app_head; apply Permutation_sym; exact G]. solve_perm.
      + unfold gen_header_key, sha2. cbn [ch_value ch_root ch_node id_value id_identifier obytes]. unfold digest_matching_cipher. rewrite <- V.
        unfold cipher_key_create. rewrite L. reflexivity.
  Qed.

  Lemma header_key_dropped c v v' : ch_dropped v v' -> gen_header_key P c v' = gen_header_key P c v.
  Proof. intros ((_ & A & _) & (_ & B & _) & _). unfold gen_header_key. rewrite A, B. reflexivity. Qed.
  Definition cipher_key_dec (a b : cipher_key) : {a = b} + {a <> b}.
  Proof. decide equality; [apply (list_eq_dec Byte.byte_eq_dec)|decide equality]. Defined.
  #[export] Instance ctx_copy_rule : Copies (h_ctx_copy P) cx_cells cx_value whole (cx_dropped P) (fits_ctx P) cx_copy_plain
    [T_ec_key; T_ecdsa_result; T_cipher_key; T_buffer; T_data; T_ctx] false true.
  Proof.
    start_copy h_ctx_copy cx_cells. wgo. unfold h_ctx_create. wstep. pull E0 (ch_cells t'0).
    eapply header_key_wp; [exact E0|kept|untested_tac|].
    - intros k h4 E1 G. wstep. wstep.
      + wstep. untested_tac.
      + wstep. rewrite (header_key_dropped _ _ _ H6) in G. apply QS.
        * unfold cx_cells. cbn. eapply ext_perm; [|exact E]. solve_perm.
        * unfold cx_dropped. cbn. repeat split; try assumption; apply H6.
        * destruct (cipher_key_dec (ck_value k) (ck_value hcx_header)) as [J|J].
          -- whole_or_excused.
          -- right. apply HD; [reflexivity|]. intros (_ & _ & _ & Z). exfalso. apply J. cbn [cx_value cx_chain cx_header_key HeapMessages.hcx_chain HeapMessages.hcx_header] in Z.
             rewrite G in Z. exact (Some_inj' _ _ Z).
  Qed.
  Lemma cx_plain_rel : PlainRel (cx_dropped P) cx_plain.
  Proof. intros v v' (_ & C & _). exact (chain_plain_rel _ _ C). Qed.
  #[local] Existing Instance cx_plain_rel.
  #[export] Instance gen_result_copy_rule : Copies (h_gen_result_copy P) gr_cells gr_value whole (gr_dropped P) (fits_gen_result P) gr_copy_plain
    [T_ec_key; T_ecdsa_result; T_cipher_key; T_buffer; T_data; T_ctx] false true.
  Proof. start_copy h_gen_result_copy gr_cells. wgo. Qed.
End ctx.
