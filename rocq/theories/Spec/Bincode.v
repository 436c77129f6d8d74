(** The format of the crate bincode (version 2, [config::standard()]), as it
    documents it, for the map of the size cache: little endian, numbers with a
    variable number of bytes. The crate is outside the repository; this is an
    example of what Spec/Caches.v asks of it. *)
From Verif Require Import Base.Bytes Model.Caches.
Open Scope list_scope.
Open Scope Z_scope.

(** [n] bytes, least significant first. *)
Fixpoint le_bytes (n : nat) (z : Z) : list byte := match n with O => [] | S n => z2b z :: le_bytes n (z / 256) end.
Fixpoint of_le (n : nat) (l : list byte) : option (Z * list byte) :=
  match n, l with
  | O, l => Some (0, l)
  | S n, [] => None
  | S n, b :: l => match of_le n l with Some (z, r) => Some (b2z b + 256 * z, r) | None => None end
  end.

(** A number below 2^128: one byte if it is below 251, otherwise a byte that
    announces 2, 4, 8 or 16 bytes. *)
Definition write_number (z : Z) : list byte :=
  if z <? 251 then [z2b z]
  else if z <? 2 ^ 16 then z2b 251 :: le_bytes 2 z
  else if z <? 2 ^ 32 then z2b 252 :: le_bytes 4 z
  else if z <? 2 ^ 64 then z2b 253 :: le_bytes 8 z
  else z2b 254 :: le_bytes 16 z.
Definition read_number (l : list byte) : option (Z * list byte) :=
  match l with
  | [] => None
  | b :: l =>
      let t := b2z b in
      if t <? 251 then Some (t, l)
      else if t =? 251 then of_le 2 l else if t =? 252 then of_le 4 l else if t =? 253 then of_le 8 l
      else if t =? 254 then of_le 16 l else None
  end.
(** Signed numbers: 0, -1, 1, -2, 2, ... are written as 0, 1, 2, 3, 4, ... *)
Definition zigzag (z : Z) : Z := if 0 <=? z then 2 * z else - 2 * z - 1.
Definition unzigzag (z : Z) : Z := if Z.even z then z / 2 else - ((z + 1) / 2).

Definition write_algorithm (a : algorithm) : list byte := write_number (match a with ZStandard => 0 | LosslessTransformUtils => 1 end).
Definition read_algorithm (l : list byte) : option (algorithm * list byte) :=
  match read_number l with
  | Some (z, l) => if z =? 0 then Some (ZStandard, l) else if z =? 1 then Some (LosslessTransformUtils, l) else None
  | None => None
  end.
Definition write_entry (e : size_key * Z) : list byte :=
  let '((h, level, a), n) := e in write_number h ++ write_number (zigzag level) ++ write_algorithm a ++ write_number n.
Definition read_entry (l : list byte) : option ((size_key * Z) * list byte) :=
  match read_number l with
  | None => None
  | Some (h, l) =>
      match read_number l with
      | None => None
      | Some (level, l) =>
          match read_algorithm l with
          | None => None
          | Some (a, l) => match read_number l with None => None | Some (n, l) => Some ((h, unzigzag level, a, n), l) end
          end
      end
  end.
Fixpoint read_entries (n : nat) (l : list byte) : option (size_cache * list byte) :=
  match n with
  | O => Some ([], l)
  | S n =>
      match read_entry l with
      | None => None
      | Some (e, l) => match read_entries n l with None => None | Some (m, l) => Some (e :: m, l) end
      end
  end.
(** The number of entries, and the entries. Reading does not look at what follows. *)
Definition standard : bincode := {|
  encode := fun m => write_number (zlen m) ++ flat_map write_entry m;
  decode := fun l => match read_number l with
                     | None => None
                     | Some (n, l) => match read_entries (Z.to_nat n) l with Some (m, _) => Some m | None => None end
                     end |}.
