(** Specification: what crc32_printer should print.  Uses S_crc32 and S_hex only. *)
From Coq Require Import String Ascii.
From Verif Require Import Base S_crc32 S_hex.

Definition text (s : string) : list Z := map (fun c => Z.of_nat (nat_of_ascii c)) (list_ascii_of_string s).
(** a CRC is printed as the hexadecimal text of its 4 bytes *)
Definition crc_text (bits : list bool) (t : list Z) : Prop := exists b, zlen b = 4 /\ bytes b /\ wire_bits b = bits /\ t = hex_of b.
(** the generator polynomials of CRC-32C and CRC-32; JAMCRC is CRC-32 without the final complement *)
Definition report (data out : list Z) : Prop := exists c s r,
  crc_text (crc 0x1edc6f41 data) c /\ crc_text (crc 0x04c11db7 data) s /\ crc_text (map negb (crc 0x04c11db7 data)) r /\
  out = text "CRC (castagnoli): " ++ c ++ [10] ++ text "CRC (standard)  : " ++ s ++ [10] ++ text "CRC (r4/jamcrc) : " ++ r ++ [10].
