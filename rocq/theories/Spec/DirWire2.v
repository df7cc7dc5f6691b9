(** The layouts of package-2 directories (with 32-bit and with 64-bit entry
    counts), written down independently of the reader. *)
From Coq Require Import ZArith List Bool.
From Verif.Model Require Import Offset.
From Verif.Spec Require Import Wire StrWire Version PropWire DirWire.
Import ListNotations.
Open Scope Z_scope.

(** Multiplier, mask and rotation of a package-2 offset scheme. *)
Definition scheme (v : offv) (hash1 hash m k d : Z) : Prop :=
  match v with
  | OPkg1 => False
  | OPkg2V1 => m = hash /\ k = hash1 * 0x01010101 mod 2 ^ 32 /\ d = Z.lxor hash hash1 mod 32
  | OPkg2V2 => m = Z.lxor hash hash1 /\ k = hash1 * 0x01010101 mod 2 ^ 32 /\ d = Z.lxor hash hash1 mod 32
  | OPkg2V3 =>
      let x := Z.lxor (mix32 (Z.lxor (Z.lxor hash1 hash) 0x6D4C3B2A)) 0x91E10DA5 in
      m = Z.lxor hash1 hash + Z.lxor x 0xA7E3C093 /\
      k = Z.lxor (hash1 * 0x01010101 mod 2 ^ 32) (x * 0x9E3779B9 mod 2 ^ 32) /\
      d = Z.lxor (Z.lxor hash1 hash) x mod 32
  | OPkg264 =>
      let x := Z.lxor (Z.lxor hash1 hash) 0x33BBBB33 in
      m = Z.lxor hash1 hash + Z.lxor x 0xA7E3C093 /\
      k = Z.lxor (hash1 * 0x01010101 mod 2 ^ 32) (x * 0x9E3779B9 mod 2 ^ 32) /\
      d = 19
  end.

(** The stored value [enc] at position [pos] stands for offset [off]; the hashes
    enter with their low 32 bits. *)
Definition pkg2_offset (v : offv) (fstart hash1 hash pos enc off : Z) : Prop :=
  exists m k d r, scheme v (hash1 mod 2 ^ 32) (hash mod 2 ^ 32) m k d /\
    rotated (Z.lxor (((2 ^ 32 - 1 - (pos - fstart) mod 2 ^ 32) * m - 0x581C3F6D) mod 2 ^ 32) k) d r /\
    off = (Z.lxor r (if match v with OPkg2V1 => true | _ => false end then enc else 2 ^ 32 - 1 - enc) + fstart) mod 2 ^ 32.

Definition t_off (t : dtree) : Z := match t with TImage off _ | TDir off _ _ => off end.
Definition t_size (t : dtree) : Z := match t with TImage _ size | TDir _ size _ => size end.
Definition t_byte (t : dtree) : Z := match t with TImage _ _ => 4 | TDir _ _ _ => 3 end.

Section pkg2.
  Variable buf : list Z.
  Variable ks pks : nat -> Z.
  (** 64-bit package; name key in use. *)
  Variable wide p2 : bool.
  Variable fstart hash1 hash : Z.
  Variable v : offv.
  (** [strict = false] is the whole format; [strict = true] leaves out what the
      reader is known not to cope with: empty directories and counts taken for
      an entry type (32-bit), subdirectories whose enciphered count is negative. *)
  Variable strict : bool.

  (** The first name of a directory is enciphered with the name key when there is one. *)
  Inductive name_at (first : bool) (p q : Z) (name : list Z) : Prop :=
  | name_plain : first && p2 = false -> unicode name -> at_ buf p q (enc_str ks name) -> name_at first p q name
  | name_keyed : first && p2 = true -> unicode name -> wide = false ->
      1 <= Z.of_nat (length (units16 name)) <= 127 -> at_ buf p q (enc_pkg2_name pks name) -> name_at first p q name
  | name_keyed_wide : first && p2 = true -> unicode name -> wide = true ->
      1 <= Z.of_nat (length (units16 name)) <= 32767 ->
      at_ buf p q (enc_le 2 (- Z.of_nat (length (units16 name))) ++ body_pkg2 pks (units16 name)) -> name_at first p q name.

  (** Type, name, size and checksum of each entry. *)
  Inductive laid_heads : bool -> Z -> Z -> list (list Z * dtree) -> Prop :=
  | heads_nil first p : laid_heads first p p []
  | heads_cons first p a b c q checksum name t kids :
      at_ buf p (p + 1) [t_byte t] -> name_at first (p + 1) a name ->
      0 <= t_size t -> int_at buf a b (t_size t) -> int_at buf b c checksum ->
      laid_heads false c q kids -> laid_heads first p q ((name, t) :: kids).

  Definition starts_with_count (off : Z) : Prop :=
    exists e c, 0 <= c /\ if wide then c < 2 ^ 63 /\ at_ buf off e (enc_wzint 8 c) else int_at buf off e c.

  (** [laid_dir2 off kids]: a directory block.  Narrow: the enciphered count
      (any number), the
      entries, the same count again, the stored offsets.  Wide: the count of
      entries shifted left by 16 and XORed with the hashes, entries, offsets. *)
  Inductive laid_dir2 : Z -> list (list Z * dtree) -> Prop :=
  | dir_narrow off a b c q n kids : wide = false ->
      (strict = true -> kids <> []) -> (strict = true -> ~ 1 <= n <= 4) ->
      int_at buf off a n -> laid_heads true a b kids -> int_at buf b c n ->
      laid_offs c q kids -> laid_dir2 off kids
  | dir_wide off a b q n low kids : wide = true -> v = OPkg264 -> Z.of_nat (length kids) <= 1000000 ->
      0 <= low < 2 ^ 16 -> - 2 ^ 63 <= n < 2 ^ 63 ->
      n mod 2 ^ 64 = Z.lxor (Z.lxor (Z.lxor (Z.of_nat (length kids) * 2 ^ 16 + low) hash1) hash) 0x550EC4DD02C468EC ->
      at_ buf off a (enc_wzint 8 n) -> laid_heads true a b kids ->
      laid_offs b q kids -> laid_dir2 off kids
  with laid_offs : Z -> Z -> list (list Z * dtree) -> Prop :=
  | offs_nil p : laid_offs p p []
  | offs_image p q name off size enc hb kids : off + size <= Z.of_nat (length buf) ->
      0 <= enc < 2 ^ 32 -> at_ buf p (p + 4) (enc_le 4 enc) -> pkg2_offset v fstart hash1 hash p enc off ->
      hb = 0x73 \/ hb = 0x01 \/ hb = 0x23 -> at_ buf off (off + 1) [hb] ->
      laid_offs (p + 4) q kids -> laid_offs p q ((name, TImage off size) :: kids)
  | offs_dir p q name off size enc sub kids : off + size <= Z.of_nat (length buf) ->
      0 <= enc < 2 ^ 32 -> at_ buf p (p + 4) (enc_le 4 enc) -> pkg2_offset v fstart hash1 hash p enc off ->
      (strict = true -> starts_with_count off) -> size <> 0 -> laid_dir2 off sub ->
      laid_offs (p + 4) q kids -> laid_offs p q ((name, TDir off size sub) :: kids)
  | offs_empty_dir p q name off enc kids : off <= Z.of_nat (length buf) ->
      0 <= enc < 2 ^ 32 -> at_ buf p (p + 4) (enc_le 4 enc) -> pkg2_offset v fstart hash1 hash p enc off ->
      (strict = true -> starts_with_count off) ->
      laid_offs (p + 4) q kids -> laid_offs p q ((name, TDir off 0 []) :: kids).
End pkg2.
