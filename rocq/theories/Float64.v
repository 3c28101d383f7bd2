(** The chunk size of stream_dataset.py 205-206 in double precision, as Python computes it. [Data.chunk_size] takes the
    arithmetic as exact; here every operation rounds to binary64 (53 significant bits, nearest, ties to even; see F32.v).

    Exponents are unbounded: overflow and underflow do not occur with audio files. chunk_seconds is a float; an int gives an
    exact first product, which is covered when the product fits into 53 bits. *)

From Coq Require Import String List ZArith Bool Lia.
From Verif Require Import Py Meta Pad Data F32.
Import ListNotations.
Open Scope Z_scope.

(** A float times an int: Python first converts the int. *)
Definition mul_int (p : Z) (f : frac) (k : Z) : frac :=
  let '(a, b) := f in
  let '(c, d) := round_float p (k, 1) in
  round_float p (a * c, b * d).

(** A float divided by a positive float. *)
Definition div_floats (p : Z) (f g : frac) : frac :=
  let '(a, b) := f in
  let '(c, d) := g in
  round_float p (a * d, b * c).

(** round(x) of a float: the nearest int, ties to even. *)
Definition round_frac (f : frac) : Z := let '(a, b) := f in nearest a b.

(** stream_dataset.py 205-206: stride = num_frames / L (division of ints, rounded once); round(chunk_seconds * sample_rate / stride). *)
Definition chunk_size64 (c : frac) (rate num_frames L : Z) : res Z :=
  if L =? 0 then Err ZeroDivisionError
  else
    let stride := round_float 53 (num_frames, L) in
    if fst stride =? 0 then Err ZeroDivisionError
    else Ok (round_frac (div_floats 53 (mul_int 53 c rate) stride)).

Section Float64.
Context {V : Type}.

(** stream_dataset.py 193-221 (process_data) with this chunk size; otherwise as [Data.process_data]. *)
Definition process_data64 (w : world V) (d : dataset) (file : string) : gen (sample V) :=
  gres (do '(raw, rate) <- load w file;
        let audio := transform w raw in
        do c <- chunk_size64 (dcn d, dcd d) rate (zlen raw) (zlen audio);
        if c =? 0 then Err ValueError
        else
          let chunks := map (fun i => firstn (Z.to_nat c) (skipn (Z.to_nat i) audio)) (py_range 0 (zlen audio) c) in
          Ok (gen_of (map (fun p => mkSample audio (fst p =? 0) (fst p =? zlen chunks - 1) (zlen (snd p)) (fst p) (zlen chunks) file)
                          (zip (map Z.of_nat (seq 0 (length chunks))) chunks)))).

End Float64.
