(* The Protocol Buffers (proto2) wire format as protobuf-c 1.3/1.4 reads and writes it.
   protobuf-c is not part of /repo; the generated code there (src/protobuf/gen) calls
   protobuf_c_message_pack / _unpack with the descriptors of src/protobuf/*.proto.
   Unknown fields are skipped, the last occurrence of a scalar wins, repeated occurrences of a
   sub-message are merged, groups are errors, missing required fields are errors.
   Allocation failures inside protobuf-c are not modelled. *)
From Verif.Base Require Import Bytes.
From Verif.Model Require Import Buffer.
Local Open Scope N_scope.

(* a field as found on the wire; a varint is kept before truncation to its type *)
Inductive wval := WVar (v : N) | W64 (b : bytes) | WLen (b : bytes) | W32 (b : bytes).
Definition field : Type := N * wval.

(* protobuf-c.c uint64_pack / uint32_pack *)
Fixpoint varint_enc (fuel : nat) (n : N) : bytes :=
  match fuel with
  | O => [n2b n]
  | S f => if n <? 128 then [n2b n] else n2b (128 + n mod 128) :: varint_enc f (n / 128)
  end.
Definition varint (n : N) : bytes := varint_enc 9 n.

(* protobuf-c.c: a varint of at most [fuel] bytes, and what follows it *)
Fixpoint varint_dec (fuel : nat) (l : bytes) : option (N * bytes) :=
  match fuel, l with
  | S f, c :: l' =>
      if b2n c <? 128 then Some (b2n c, l')
      else match varint_dec f l' with
           | Some (v, r) => Some (b2n c - 128 + 128 * v, r)
           | None => None
           end
  | _, _ => None
  end.

Definition take_n (n : N) (l : bytes) : option (bytes * bytes) :=
  if blen l <? n then None else Some (firstn (N.to_nat n) l, skipn (N.to_nat n) l).

(* protobuf-c.c parse_tag_and_wiretype (at most 5 bytes), then the value by wire type;
   scan_length_prefixed_data reads at most 5 bytes of length *)
Definition scan1 (l : bytes) : option (field * bytes) :=
  match varint_dec 5 l with
  | None => None
  | Some (key, r) =>
      let tag := key / 8 in
      match key mod 8 with
      | 0 => match varint_dec 10 r with Some (v, r') => Some ((tag, WVar v), r') | None => None end
      | 1 => match take_n 8 r with Some (b, r') => Some ((tag, W64 b), r') | None => None end
      | 2 => match varint_dec 5 r with
             | Some (n, r1) => match take_n n r1 with Some (b, r') => Some ((tag, WLen b), r') | None => None end
             | None => None
             end
      | 5 => match take_n 4 r with Some (b, r') => Some ((tag, W32 b), r') | None => None end
      | _ => None
      end
  end.
(* protobuf-c.c protobuf_c_message_unpack, first loop; every field takes at least one byte *)
Fixpoint scan_fuel (fuel : nat) (l : bytes) : option (list field) :=
  match l with
  | [] => Some []
  | _ => match fuel with
         | O => None
         | S f => match scan1 l with
                  | None => None
                  | Some (x, r) => match scan_fuel f r with Some fs => Some (x :: fs) | None => None end
                  end
         end
  end.
Definition scan (l : bytes) : option (list field) := scan_fuel (length l) l.

(* protobuf-c.c required_field_pack: a varint field, a length-delimited field *)
Definition f_var (tag v : N) : bytes := (varint (8 * tag) ++ varint v)%list.
Definition f_len (tag : N) (b : bytes) : bytes := (varint (8 * tag + 2) ++ varint (blen b) ++ b)%list.
(* optional_field_pack *)
Definition f_var_opt (tag : N) (v : option N) : bytes := match v with Some x => f_var tag x | None => [] end.
Definition f_len_opt (tag : N) (b : option bytes) : bytes := match b with Some x => f_len tag x | None => [] end.

(* protobuf-c.c parse_member.  Outer None: the field has another wire type, unpack fails. *)
Fixpoint get_bytes (tag : N) (fs : list field) (acc : option bytes) : option (option bytes) :=
  match fs with
  | [] => Some acc
  | (t, w) :: fs' =>
      if t =? tag then match w with WLen b => get_bytes tag fs' (Some b) | _ => None end
      else get_bytes tag fs' acc
  end.
Fixpoint get_var (tag : N) (fs : list field) (acc : option N) : option (option N) :=
  match fs with
  | [] => Some acc
  | (t, w) :: fs' =>
      if t =? tag then match w with WVar v => get_var tag fs' (Some v) | _ => None end
      else get_var tag fs' acc
  end.
(* every occurrence of a sub-message is parsed; a later one is merged with the earlier *)
Fixpoint get_msg {A} (tag : N) (parse : bytes -> option A) (merge : A -> A -> A) (fs : list field) (acc : option A) : option (option A) :=
  match fs with
  | [] => Some acc
  | (t, w) :: fs' =>
      if t =? tag then
        match w with
        | WLen b => match parse b with
                    | Some m => get_msg tag parse merge fs' (Some (match acc with Some e => merge e m | None => m end))
                    | None => None
                    end
        | _ => None
        end
      else get_msg tag parse merge fs' acc
  end.
(* a repeated sub-message *)
Fixpoint get_rep {A} (tag : N) (parse : bytes -> option A) (fs : list field) : option (list A) :=
  match fs with
  | [] => Some []
  | (t, w) :: fs' =>
      if t =? tag then
        match w with
        | WLen b => match parse b, get_rep tag parse fs' with
                    | Some m, Some r => Some (m :: r)
                    | _, _ => None
                    end
        | _ => None
        end
      else get_rep tag parse fs'
  end.

(* parse_uint32, parse_uint64, parse_boolean *)
Definition u32 (v : N) : N := v mod two32.
Definition u64 (v : N) : N := v mod two64.
Definition pbool (v : N) : bool := negb (v =? 0).
Definition get_u32 tag fs := match get_var tag fs None with Some o => Some (option_map u32 o) | None => None end.
Definition get_u64 tag fs := match get_var tag fs None with Some o => Some (option_map u64 o) | None => None end.
Definition get_bool tag fs := match get_var tag fs None with Some o => Some (option_map pbool o) | None => None end.

(* protobuf-c.c merge_messages, per field.  An empty later byte string gives way to a
   non-empty earlier one; required fields of the later message stay. *)
Definition merge_bytes (e l : option bytes) : option bytes :=
  match l with
  | Some (_ :: _) => l
  | _ => match e with Some (_ :: _) => e | _ => l end
  end.
Definition merge_opt {A} (e l : option A) : option A := match l with Some _ => l | None => e end.
Definition merge_sub {A} (merge : A -> A -> A) (e l : option A) : option A :=
  match e, l with
  | Some x, Some y => Some (merge x y)
  | Some x, None => Some x
  | None, _ => l
  end.

(* wickr_X_serialize: packed_size, wickr_buffer_create_empty, pack *)
Definition pack_buffer (packed : bytes) : option bytes := buffer_create packed.
