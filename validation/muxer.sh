#!/bin/bash
# Extracts the model of example/mp4-muxer.cpp (rocq/theories/Muxer.v) to OCaml, runs the nine sessions of
# /repo/test/integration/Makefile with the resources of /repo and compares the SHA-224 of the files with
# /repo/test/integration/output/check.  Needs the built theories, ocamlfind and zarith; takes half an hour.
# The recorded results are in muxer.out.  Not part of the proofs.
set -e
V=$(cd "$(dirname "$0")/.." && pwd); W=$(mktemp -d); cd "$W"
cat > ext.v <<'EOT'
From Verif Require Import Base Boxes Box BoxTree Track Writers Float Muxer MovieSpec.
From Coq Require Import Extraction ExtrOcamlBasic ExtrOcamlNatInt ExtrOcamlZBigInt ExtrOcamlNativeString.
Extraction "mux.ml" the_command muxer_calls ticks step start.
EOT
cat > main.ml <<'EOT'
open Mux
let b = Big_int_Z.big_int_of_int
let hex c = match c with '0'..'9' -> Char.code c - 48 | 'a'..'f' -> Char.code c - 87 | 'A'..'F' -> Char.code c - 55 | _ -> failwith "hex"
let octets = Array.init 256 b
let load f =
  if f = "-" then [] else
  let ic = open_in f in
  let r = ref [] in
  (try while true do
    match String.split_on_char ',' (String.trim (input_line ic)) with
    | ts :: n :: h :: rest ->
      let d = List.init (String.length h / 2) (fun i -> octets.(16 * hex h.[2*i] + hex h.[2*i+1])) in
      if List.length d <> int_of_string n then failwith "length";
      let key = match rest with [] -> true | k :: _ -> k = "true" in
      r := { r_timestamp = b (int_of_string ts); r_data = d; r_key = key } :: !r
    | _ -> failwith "csv"
  done with End_of_file -> close_in ic);
  List.rev !r
let cmd = match Sys.argv.(1) with
  | "opus" -> Opus0 | "opusvp9" -> Opusvp9 | "opusav1" -> Opusav1 | "mp3vp8" -> Mp3vp8 | "aacvp9" -> Aacvp9 | "opusvp9_faststart" -> Opusvp9_faststart
  | "aacvp9_faststart" -> Aacvp9_faststart | "aach264" -> Aach264 | "aach264_faststart" -> Aach264_faststart | _ -> failwith "cmd"
let () =
  let time = b (int_of_string Sys.argv.(2)) in
  let c = the_command cmd in
  let calls = muxer_calls c (load Sys.argv.(3)) (load Sys.argv.(4)) in
  let s = ref (start c.m_class (b 1000) (ticks (b 1000) c.m_duration) time c.m_ftyp) in
  List.iter (fun o -> let x = step !s o in (match snd x with Ok _ -> () | Throw _ -> failwith "throw" | UB -> failwith "UB"); s := fst x) calls;
  let l = !s.s_writer.mw_os.os_data in
  let oc = open_out_bin Sys.argv.(5) in List.iter (fun z -> output_char oc (Char.chr (Big_int_Z.int_of_big_int z))) l; close_out oc
EOT
coqc -Q "$V/rocq/theories" Verif ext.v
ocamlfind ocamlopt -w -a -package zarith -linkpkg mux.mli mux.ml main.ml -o mux
R=/repo/test/integration/resources; ulimit -s unlimited
T=$((1606780800 + 2082844800 - 32400))   # 2020-12-01 00:00:00 in the time zone JST, since 1904
run() {
  ./mux $1 $T $R/$2.csv ${3:+$R/}${3:--}${3:+.csv} $1_test.mp4
  h=$(sha224sum $1_test.mp4 | cut -d' ' -f1)
  if grep -q "^$h  output/$1_test.mp4$" /repo/test/integration/output/check; then echo "$1 identical $h"; else echo "$1 DIFFERS"; fi
}
run opus opus; run opusvp9 opus vp9; run opusvp9_faststart opus vp9; run mp3vp8 mp3 vp8; run aacvp9 aac vp9
run aacvp9_faststart aac vp9; run opusav1 opus av1; run aach264 aac h264; run aach264_faststart aac h264
