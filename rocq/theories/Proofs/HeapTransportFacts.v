(* Rules for the functions of Model/HeapMessages.v, continued: handshakes, transports, contexts. *)
From Verif.Base Require Import Bytes.
From Verif.Model Require Import Buffer Cipher Ecdsa Kdf Prims Engine Identity Node Stream TransportPacket EcdhCipher Handshake Transport Keys Payload Exchange Packet Ctx Heap HeapObjects HeapMessages.
From Verif.Spec Require Import HeapSpec HeapObjectSpec BufferSpec CopySpec.
From Verif.Proofs Require Import BufferFacts HeapFacts HeapObjectFacts HeapMessageFacts.
From Coq Require Import Permutation ZifyBool ZifyNat ZifyN.

(* optional parts are told apart only when they are copied *)
Ltac lazy_copy f cells :=
  split; [reflexivity|]; intros secret U W D fails h0 X h t Q HU HW HD E M K QN QS; unfold cells in M; memory; unfold f; open_plain K t;
  destruct t; cbn in *.
Ltac part := match goal with
  | |- wp _ _ (_ ?o) _ _ => is_var o; lazymatch type of o with option _ => destruct o; cbn in * end
  end.
Ltac lazy_go := repeat (post || wstep || wcopy || wdestroy || untested_tac || part || (progress autounfold with creates; cbn) || (progress cbn) || branch).

Section unfolded.
  (* the half made copy is destroyed piece by piece *)
  Local Hint Unfold h_handshake_destroy : creates.
  Local Hint Unfold made_handshake : made.
  #[export] Instance handshake_copy_rule : Copies h_handshake_copy hs_cells hs_value hs_keep hs_dropped fits_handshake hs_copy_plain
    [T_ec_key; T_ecdsa_result] false true.
  Proof. lazy_copy h_handshake_copy hs_cells. lazy_go. Qed.
End unfolded.

#[export] Instance transport_destroy_rule : Destroys h_transport_destroy tc_cells tc_value tc_plain.
Proof. start_destroy h_transport_destroy tc_cells. all: wgo. Qed.
Section unfolded.
  Local Hint Unfold made_transport : made.
  #[export] Instance transport_copy_rule : Copies h_transport_copy tc_cells tc_value tc_keep tc_dropped fits_transport tc_copy_plain
    [T_ec_key; T_ecdsa_result; T_cipher_key] false true.
  Proof. lazy_copy h_transport_copy tc_cells. lazy_go. Qed.
End unfolded.
