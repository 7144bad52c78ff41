(** Keys of sd_mecha/extensions/builtin/model_configs/sd1-supermerger_blocks.yaml (all 29 lines), transcribed by tools/gen_configs.py.
    sha256 of the YAML file: 2382a72b5a58e8af0a0f1573bc925aabea0f8f41b72e5a981cbeba720f979472 *)
From Coq Require Import String List NArith.
From Verif Require Import ModelKeys.
Import ListNotations.
Local Open Scope string_scope.
Local Open Scope N_scope.

(* sd_mecha/extensions/builtin/model_configs/sd1-supermerger_blocks.yaml, component blocks *)
Definition blocks_0 : list key_entry := [
  entry "BASE" [] float32 [] false;
  entry "IN00" [] float32 [] false;
  entry "IN01" [] float32 [] false;
  entry "IN02" [] float32 [] false;
  entry "IN03" [] float32 [] false;
  entry "IN04" [] float32 [] false;
  entry "IN05" [] float32 [] false;
  entry "IN06" [] float32 [] false;
  entry "IN07" [] float32 [] false;
  entry "IN08" [] float32 [] false;
  entry "IN09" [] float32 [] false;
  entry "IN10" [] float32 [] false;
  entry "IN11" [] float32 [] false;
  entry "M00" [] float32 [] false;
  entry "OUT00" [] float32 [] false;
  entry "OUT01" [] float32 [] false;
  entry "OUT02" [] float32 [] false;
  entry "OUT03" [] float32 [] false;
  entry "OUT04" [] float32 [] false;
  entry "OUT05" [] float32 [] false;
  entry "OUT06" [] float32 [] false;
  entry "OUT07" [] float32 [] false;
  entry "OUT08" [] float32 [] false;
  entry "OUT09" [] float32 [] false;
  entry "OUT10" [] float32 [] false;
  entry "OUT11" [] float32 [] false
].

(* sd_mecha/extensions/builtin/model_configs/sd1-supermerger_blocks.yaml, component blocks: 26 keys *)
Definition blocks : list key_entry := blocks_0.

(* sd_mecha/extensions/builtin/model_configs/sd1-supermerger_blocks.yaml *)
Definition config : yaml_config :=
  mk_yaml_config "sd1-supermerger_blocks" "sd1-supermerger_blocks" [("blocks", blocks)].
