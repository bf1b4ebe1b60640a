(* Specification: compound RTCP packets (RFC 3550 6.1): several packets one after the other, each with its
   length in 32-bit words less one; and the loop of a program that reads them.  Independent of the model. *)
From Verif Require Import Base S_rtp.

(* a sender report with its blocks and a profile-specific extension, or a packet of another type *)
Inductive report :=
| Sender (padding : bool) (s : sender_info) (blocks : list report_block) (ext : bytes)
| Other (padding : bool) (count type : Z) (body : bytes).

Definition report_size (r : report) : Z :=
  match r with
  | Sender _ _ blocks ext => 28 + 24 * zlen blocks + zlen ext
  | Other _ _ _ body => 4 + zlen body
  end.

Definition report_bytes (r : report) : bytes :=
  match r with
  | Sender padding s blocks ext => sr_layout padding (report_size r / 4 - 1) s blocks ext
  | Other padding count type body => rtcp_header_bytes padding count type (report_size r / 4 - 1) ++ body
  end.

Definition report_legal (r : report) : Prop :=
  report_size r mod 4 = 0 /\ report_size r <= 4 * 65536 /\
  match r with
  | Sender _ s blocks _ => si_legal s /\ zlen blocks <= 31
  | Other _ count type _ => 0 <= count <= 31 /\ 0 <= type <= 255 /\ type <> 200
  end.

(* A program that reads n packets: unpack, go on behind the packet, as long as its length field says. *)
Fixpoint walk {P} (unpack : bytes -> res P) (length_field : P -> Z) (n : nat) (buf : bytes) : res (list P * bytes) :=
  match n with
  | O => Ok ([], buf)
  | S n =>
      let! p := unpack buf in
      let! r := walk unpack length_field n (skipn (Z.to_nat (4 * (length_field p + 1))) buf) in
      Ok (p :: fst r, snd r)
  end.
