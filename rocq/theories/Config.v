(* Frame configuration: /repo/src/common/config.rs *)
From Coq Require Import ZArith List.
From Verif Require Import Base.
Local Open Scope Z_scope.

(* config.rs:1-9 *)
Inductive freq : Set := Hz8000 | Hz16000 | Hz24000 | Hz32000 | Hz44100 | Hz48000.
(* config.rs:11-15 *)
Inductive duration : Set := SevenPointFiveMs | TenMs.

(* config.rs:17-39 *)
Record config : Set := mkConfig {
  fs_ind : Z;
  fs : Z;
  ne : Z;
  n_ms : duration;
  nb : Z;
  nf : Z;
  zlead : Z   (* field `z` *)
}.

(* config.rs:43-50 *)
Definition cfg_fs_ind (f : freq) : Z :=
  match f with Hz8000 => 0 | Hz16000 => 1 | Hz24000 => 2 | Hz32000 => 3 | Hz44100 => 4 | Hz48000 => 4 end.
Definition cfg_fs (f : freq) : Z :=
  match f with Hz8000 => 8000 | Hz16000 => 16000 | Hz24000 => 24000 | Hz32000 => 32000 | Hz44100 => 44100 | Hz48000 => 48000 end.

(* config.rs:42-99 `Lc3Config::new` *)
Definition config_new (f : freq) (d : duration) : config :=
  match d with
  | SevenPointFiveMs =>
      let nf := match f with Hz8000 => 60 | Hz16000 => 120 | Hz24000 => 180 | Hz32000 => 240 | Hz44100 => 360 | Hz48000 => 360 end in
      let ne := if nf =? 360 then 300 else nf in
      let nb := match f with Hz8000 => 60 | _ => 64 end in
      mkConfig (cfg_fs_ind f) (cfg_fs f) ne d nb nf (7 * nf / 30)
  | TenMs =>
      let nf := match f with Hz8000 => 80 | Hz16000 => 160 | Hz24000 => 240 | Hz32000 => 320 | Hz44100 => 480 | Hz48000 => 480 end in
      let ne := if nf =? 480 then 400 else nf in
      mkConfig (cfg_fs_ind f) (cfg_fs f) ne d 64 nf (3 * nf / 8)
  end.

(* /repo/src/common/constants.rs *)
Definition MAX_LEN_SPECTRAL : Z := 400.
Definition MAX_LEN_FREQUENCY : Z := 480.
