(** Sample packets (written by tools/gen_samples.py): the dumps of /repo/raw and
    hand-written packets for the types without a dump.  They are used only to
    show that hypotheses can be met. *)
From Coq Require Import ZArith List.
From Verif Require Import Base.
Import ListNotations.
Open Scope Z_scope.

Definition samples : list bytes := [
  (* raw/v0x01/ofpt_aggregate_stats_reply.dat *)
  [1; 17; 0; 36; 0; 0; 0; 17; 0; 2; 0; 0; 0; 0; 0; 0; 0; 0; 0; 5; 0; 0; 0; 0; 0; 0; 0; 1; 0; 0; 0; 8; 0; 0; 0; 0];
  (* raw/v0x01/ofpt_aggregate_stats_request.dat *)
  [1; 16; 0; 56; 0; 0; 0; 17; 0; 2; 0; 0; 0; 15; 255; 0; 0; 80; 1; 2; 3; 4; 5; 6; 1; 2; 3; 4; 5; 6; 0; 1; 1; 0; 0; 1; 1; 1; 0; 0; 192; 168; 0; 1; 192; 168; 0; 1; 0; 80; 0; 80; 1; 0; 255; 255];
  (* raw/v0x01/ofpt_barrier_reply.dat *)
  [1; 19; 0; 8; 0; 0; 0; 5];
  (* raw/v0x01/ofpt_barrier_request.dat *)
  [1; 18; 0; 8; 0; 0; 0; 5];
  (* raw/v0x01/ofpt_desc_stats_reply.dat *)
  [1; 17; 4; 44; 0; 0; 0; 14; 0; 0; 0; 0; 65; 65; 65; 65; 65; 65; 65; 65; 65; 65; 65; 65; 65; 65; 65; 65; 65; 65; 65; 65; 65; 65; 65; 65; 65; 65; 65; 65; 65; 65; 65; 65; 65; 65; 65; 65; 65; 65; 65; 65; 65; 65; 65; 65; 65; 65; 65; 65; 65; 65; 65; 65; 65; 65; 65; 65; 65; 65; 65; 65; 65; 65; 65; 65; 65; 65; 65; 65; 65; 65; 65; 65; 65; 65; 65; 65; 65; 65; 65; 65; 65; 65; 65; 65; 65; 65; 65; 65; 65; 65; 65; 65; 65; 65; 65; 65; 65; 65; 65; 65; 65; 65; 65; 65; 65; 65; 65; 65; 65; 65; 65; 65; 65; 65; 65; 65; 65; 65; 65; 65; 65; 65; 65; 65; 65; 65; 65; 65; 65; 65; 65; 65; 65; 65; 65; 65; 65; 65; 65; 65; 65; 65; 65; 65; 65; 65; 65; 65; 65; 65; 65; 65; 65; 65; 65; 65; 65; 65; 65; 65; 65; 65; 65; 65; 65; 65; 65; 65; 65; 65; 65; 65; 65; 65; 65; 65; 65; 65; 65; 65; 65; 65; 65; 65; 65; 65; 65; 65; 65; 65; 65; 65; 65; 65; 65; 65; 65; 65; 65; 65; 65; 65; 65; 65; 65; 65; 65; 65; 65; 65; 65; 65; 65; 65; 65; 65; 65; 65; 65; 65; 65; 65; 65; 65; 65; 65; 65; 65; 65; 65; 65; 65; 65; 65; 65; 65; 65; 65; 65; 65; 65; 65; 65; 65; 65; 65; 65; 65; 65; 65; 65; 65; 65; 65; 65; 0; 65; 65; 65; 65; 65; 65; 65; 65; 65; 65; 65; 65; 65; 65; 65; 65; 65; 65; 65; 65; 65; 65; 65; 65; 65; 65; 65; 65; 65; 65; 65; 65; 65; 65; 65; 65; 65; 65; 65; 65; 65; 65; 65; 65; 65; 65; 65; 65; 65; 65; 65; 65; 65; 65; 65; 65; 65; 65; 65; 65; 65; 65; 65; 65; 65; 65; 65; 65; 65; 65; 65; 65; 65; 65; 65; 65; 65; 65; 65; 65; 65; 65; 65; 65; 65; 65; 65; 65; 65; 65; 65; 65; 65; 65; 65; 65; 65; 65; 65; 65; 65; 65; 65; 65; 65; 65; 65; 65; 65; 65; 65; 65; 65; 65; 65; 65; 65; 65; 65; 65; 65; 65; 65; 65; 65; 65; 65; 65; 65; 65; 65; 65; 65; 65; 65; 65; 65; 65; 65; 65; 65; 65; 65; 65; 65; 65; 65; 65; 65; 65; 65; 65; 65; 65; 65; 65; 65; 65; 65; 65; 65; 65; 65; 65; 65; 65; 65; 65; 65; 65; 65; 65; 65; 65; 65; 65; 65; 65; 65; 65; 65; 65; 65; 65; 65; 65; 65; 65; 65; 65; 65; 65; 65; 65; 65; 65; 65; 65; 65; 65; 65; 65; 65; 65; 65; 65; 65; 65; 65; 65; 65; 65; 65; 65; 65; 65; 65; 65; 65; 65; 65; 65; 65; 65; 65; 65; 65; 65; 65; 65; 65; 65; 65; 65; 65; 65; 65; 65; 65; 65; 65; 65; 65; 65; 65; 65; 65; 65; 65; 65; 65; 65; 65; 65; 65; 0; 65; 65; 65; 65; 65; 65; 65; 65; 65; 65; 65; 65; 65; 65; 65; 65; 65; 65; 65; 65; 65; 65; 65; 65; 65; 65; 65; 65; 65; 65; 65; 65; 65; 65; 65; 65; 65; 65; 65; 65; 65; 65; 65; 65; 65; 65; 65; 65; 65; 65; 65; 65; 65; 65; 65; 65; 65; 65; 65; 65; 65; 65; 65; 65; 65; 65; 65; 65; 65; 65; 65; 65; 65; 65; 65; 65; 65; 65; 65; 65; 65; 65; 65; 65; 65; 65; 65; 65; 65; 65; 65; 65; 65; 65; 65; 65; 65; 65; 65; 65; 65; 65; 65; 65; 65; 65; 65; 65; 65; 65; 65; 65; 65; 65; 65; 65; 65; 65; 65; 65; 65; 65; 65; 65; 65; 65; 65; 65; 65; 65; 65; 65; 65; 65; 65; 65; 65; 65; 65; 65; 65; 65; 65; 65; 65; 65; 65; 65; 65; 65; 65; 65; 65; 65; 65; 65; 65; 65; 65; 65; 65; 65; 65; 65; 65; 65; 65; 65; 65; 65; 65; 65; 65; 65; 65; 65; 65; 65; 65; 65; 65; 65; 65; 65; 65; 65; 65; 65; 65; 65; 65; 65; 65; 65; 65; 65; 65; 65; 65; 65; 65; 65; 65; 65; 65; 65; 65; 65; 65; 65; 65; 65; 65; 65; 65; 65; 65; 65; 65; 65; 65; 65; 65; 65; 65; 65; 65; 65; 65; 65; 65; 65; 65; 65; 65; 65; 65; 65; 65; 65; 65; 65; 65; 65; 65; 65; 65; 65; 65; 65; 65; 65; 65; 65; 65; 0; 65; 65; 65; 65; 65; 65; 65; 65; 65; 65; 65; 65; 65; 65; 65; 65; 65; 65; 65; 65; 65; 65; 65; 65; 65; 65; 65; 65; 65; 65; 65; 0; 65; 65; 65; 65; 65; 65; 65; 65; 65; 65; 65; 65; 65; 65; 65; 65; 65; 65; 65; 65; 65; 65; 65; 65; 65; 65; 65; 65; 65; 65; 65; 65; 65; 65; 65; 65; 65; 65; 65; 65; 65; 65; 65; 65; 65; 65; 65; 65; 65; 65; 65; 65; 65; 65; 65; 65; 65; 65; 65; 65; 65; 65; 65; 65; 65; 65; 65; 65; 65; 65; 65; 65; 65; 65; 65; 65; 65; 65; 65; 65; 65; 65; 65; 65; 65; 65; 65; 65; 65; 65; 65; 65; 65; 65; 65; 65; 65; 65; 65; 65; 65; 65; 65; 65; 65; 65; 65; 65; 65; 65; 65; 65; 65; 65; 65; 65; 65; 65; 65; 65; 65; 65; 65; 65; 65; 65; 65; 65; 65; 65; 65; 65; 65; 65; 65; 65; 65; 65; 65; 65; 65; 65; 65; 65; 65; 65; 65; 65; 65; 65; 65; 65; 65; 65; 65; 65; 65; 65; 65; 65; 65; 65; 65; 65; 65; 65; 65; 65; 65; 65; 65; 65; 65; 65; 65; 65; 65; 65; 65; 65; 65; 65; 65; 65; 65; 65; 65; 65; 65; 65; 65; 65; 65; 65; 65; 65; 65; 65; 65; 65; 65; 65; 65; 65; 65; 65; 65; 65; 65; 65; 65; 65; 65; 65; 65; 65; 65; 65; 65; 65; 65; 65; 65; 65; 65; 65; 65; 65; 65; 65; 65; 65; 65; 65; 65; 65; 65; 65; 65; 65; 65; 65; 65; 65; 65; 65; 65; 65; 65; 65; 65; 65; 65; 65; 65; 0];
  (* raw/v0x01/ofpt_echo_reply.dat *)
  [1; 3; 0; 8; 0; 0; 0; 0];
  (* raw/v0x01/ofpt_echo_request.dat *)
  [1; 2; 0; 8; 0; 0; 0; 0];
  (* raw/v0x01/ofpt_error_msg.dat *)
  [1; 1; 0; 12; 0; 0; 0; 12; 0; 1; 0; 2];
  (* raw/v0x01/ofpt_features_reply.dat *)
  [1; 6; 0; 176; 0; 0; 0; 2; 0; 0; 0; 0; 0; 0; 0; 1; 0; 0; 1; 0; 254; 0; 0; 0; 0; 0; 0; 199; 0; 0; 15; 255; 255; 254; 14; 211; 152; 165; 48; 71; 115; 49; 0; 0; 0; 0; 0; 0; 0; 0; 0; 0; 0; 0; 0; 0; 0; 0; 0; 1; 0; 0; 0; 1; 0; 0; 0; 0; 0; 0; 0; 0; 0; 0; 0; 0; 0; 0; 0; 0; 0; 1; 10; 84; 207; 252; 78; 109; 115; 49; 45; 101; 116; 104; 49; 0; 0; 0; 0; 0; 0; 0; 0; 0; 0; 0; 0; 0; 0; 0; 0; 0; 0; 0; 0; 192; 0; 0; 0; 0; 0; 0; 0; 0; 0; 0; 0; 0; 0; 2; 246; 182; 171; 204; 248; 79; 115; 49; 45; 101; 116; 104; 50; 0; 0; 0; 0; 0; 0; 0; 0; 0; 0; 0; 0; 0; 0; 0; 0; 0; 0; 0; 0; 192; 0; 0; 0; 0; 0; 0; 0; 0; 0; 0; 0; 0];
  (* raw/v0x01/ofpt_features_request.dat *)
  [1; 5; 0; 8; 0; 0; 0; 3];
  (* raw/v0x01/ofpt_flow_add.dat *)
  [1; 14; 0; 80; 0; 0; 0; 4; 0; 56; 32; 255; 0; 0; 0; 0; 0; 0; 0; 0; 0; 0; 0; 0; 0; 0; 0; 0; 0; 0; 0; 0; 0; 0; 0; 0; 0; 0; 0; 0; 0; 0; 0; 0; 0; 0; 0; 0; 0; 0; 0; 0; 0; 0; 0; 0; 0; 0; 0; 0; 0; 0; 128; 0; 255; 255; 255; 255; 255; 255; 0; 0; 0; 0; 0; 8; 255; 253; 255; 255];
  (* raw/v0x01/ofpt_flow_delete.dat *)
  [1; 14; 0; 80; 0; 0; 0; 4; 0; 56; 32; 255; 0; 0; 0; 0; 0; 0; 0; 0; 0; 0; 0; 0; 0; 0; 0; 0; 0; 0; 0; 0; 0; 0; 0; 0; 0; 0; 0; 0; 0; 0; 0; 0; 0; 0; 0; 0; 0; 0; 0; 0; 0; 0; 0; 0; 0; 3; 0; 0; 0; 0; 128; 0; 255; 255; 255; 255; 255; 255; 0; 0; 0; 0; 0; 8; 255; 253; 255; 255];
  (* raw/v0x01/ofpt_flow_removed.dat *)
  [1; 11; 0; 88; 0; 0; 0; 12; 0; 0; 0; 12; 0; 80; 0; 0; 0; 0; 0; 0; 0; 0; 0; 0; 0; 0; 0; 1; 1; 0; 0; 1; 1; 1; 0; 0; 192; 168; 0; 1; 192; 168; 0; 2; 0; 80; 0; 80; 0; 0; 0; 0; 0; 0; 0; 0; 0; 1; 0; 0; 0; 0; 0; 4; 0; 0; 0; 23; 0; 9; 0; 0; 0; 0; 0; 0; 0; 0; 0; 10; 0; 0; 0; 0; 0; 0; 0; 4];
  (* raw/v0x01/ofpt_flow_stats_request.dat *)
  [1; 16; 0; 56; 0; 0; 0; 12; 0; 1; 0; 0; 0; 0; 0; 0; 0; 80; 1; 2; 3; 4; 5; 6; 1; 2; 3; 4; 5; 6; 0; 1; 1; 0; 0; 1; 1; 1; 0; 0; 192; 168; 0; 1; 192; 168; 0; 1; 0; 80; 0; 80; 1; 0; 0; 80];
  (* raw/v0x01/ofpt_get_config_reply.dat *)
  [1; 8; 0; 12; 0; 0; 0; 13; 0; 2; 4; 0];
  (* raw/v0x01/ofpt_get_config_request.dat *)
  [1; 7; 0; 8; 0; 0; 0; 1];
  (* raw/v0x01/ofpt_hello.dat *)
  [1; 0; 0; 8; 0; 0; 0; 1];
  (* raw/v0x01/ofpt_packet_in.dat *)
  [1; 10; 0; 18; 0; 0; 0; 15; 0; 0; 0; 1; 0; 1; 0; 1; 1; 0];
  (* raw/v0x01/ofpt_packet_out.dat *)
  [1; 13; 0; 65; 0; 0; 0; 8; 255; 255; 255; 255; 255; 255; 0; 8; 0; 0; 0; 8; 0; 1; 0; 0; 1; 35; 32; 0; 0; 1; 210; 65; 198; 46; 42; 64; 136; 204; 2; 7; 7; 100; 112; 105; 100; 58; 49; 4; 2; 2; 49; 6; 2; 0; 120; 12; 6; 100; 112; 105; 100; 58; 49; 0; 0];
  (* raw/v0x01/ofpt_port_mod.dat *)
  [1; 15; 0; 32; 0; 0; 0; 3; 0; 80; 170; 187; 204; 0; 51; 159; 0; 0; 0; 1; 0; 0; 0; 32; 0; 0; 1; 0; 0; 0; 0; 0];
  (* raw/v0x01/ofpt_port_stats.dat *)
  [1; 17; 0; 116; 0; 0; 0; 13; 0; 4; 0; 0; 0; 80; 0; 0; 0; 0; 0; 0; 0; 0; 0; 0; 0; 0; 0; 5; 0; 0; 0; 0; 0; 0; 0; 10; 0; 0; 0; 0; 0; 0; 0; 200; 0; 0; 0; 0; 0; 0; 1; 144; 0; 0; 0; 0; 0; 0; 0; 0; 0; 0; 0; 0; 0; 0; 0; 0; 0; 0; 0; 0; 0; 0; 0; 0; 0; 0; 0; 0; 0; 0; 0; 0; 0; 0; 0; 0; 0; 0; 0; 0; 0; 0; 0; 0; 0; 0; 0; 0; 0; 0; 0; 0; 0; 0; 0; 0; 0; 0; 0; 0; 0; 0; 0; 0];
  (* raw/v0x01/ofpt_port_stats_request.dat *)
  [1; 16; 0; 20; 0; 0; 0; 17; 0; 4; 0; 0; 0; 80; 0; 0; 0; 0; 0; 0];
  (* raw/v0x01/ofpt_port_status.dat *)
  [1; 12; 0; 64; 0; 0; 0; 0; 2; 0; 0; 0; 0; 0; 0; 0; 0; 1; 154; 218; 17; 138; 244; 12; 115; 49; 45; 101; 116; 104; 49; 0; 0; 0; 0; 0; 0; 0; 0; 0; 0; 0; 0; 0; 0; 0; 0; 0; 0; 0; 0; 192; 0; 0; 0; 0; 0; 0; 0; 0; 0; 0; 0; 0];
  (* raw/v0x01/ofpt_queue_get_config_reply.dat *)
  [1; 21; 0; 32; 0; 0; 0; 1; 255; 252; 0; 0; 0; 0; 0; 0; 0; 0; 0; 1; 0; 8; 0; 0; 0; 1; 0; 12; 0; 0; 0; 0];
  (* raw/v0x01/ofpt_queue_get_config_request.dat *)
  [1; 20; 0; 12; 0; 0; 0; 1; 255; 0; 0; 0];
  (* raw/v0x01/ofpt_queue_stats.dat *)
  [1; 17; 0; 44; 0; 0; 0; 7; 0; 5; 0; 0; 0; 80; 0; 0; 0; 0; 0; 5; 0; 0; 0; 0; 0; 0; 0; 1; 0; 0; 0; 0; 0; 0; 0; 3; 0; 0; 0; 0; 0; 0; 0; 2];
  (* raw/v0x01/ofpt_queue_stats_request.dat *)
  [1; 16; 0; 20; 0; 0; 0; 14; 0; 5; 0; 0; 0; 80; 0; 0; 0; 0; 0; 5];
  (* raw/v0x01/ofpt_set_config.dat *)
  [1; 9; 0; 12; 0; 0; 0; 3; 0; 0; 0; 128];
  (* raw/v0x01/ofpt_stats_reply.dat *)
  [1; 17; 0; 12; 0; 0; 0; 1; 0; 1; 0; 1];
  (* raw/v0x01/ofpt_stats_request.dat *)
  [1; 16; 0; 12; 0; 0; 0; 1; 0; 1; 0; 1];
  (* raw/v0x01/ofpt_table_stats.dat *)
  [1; 17; 0; 76; 0; 0; 0; 14; 0; 3; 0; 0; 1; 0; 0; 0; 88; 88; 88; 88; 88; 88; 88; 88; 88; 88; 88; 88; 88; 88; 88; 88; 88; 88; 88; 88; 88; 88; 88; 88; 88; 88; 88; 88; 88; 88; 88; 0; 0; 0; 0; 128; 0; 0; 0; 1; 0; 0; 0; 10; 0; 0; 0; 0; 0; 0; 0; 10; 0; 0; 0; 0; 0; 0; 0; 0];
  (* raw/v0x01/ofpt_vendor_header.dat *)
  [1; 4; 0; 12; 0; 0; 0; 4; 0; 0; 0; 128];
  (* raw/v0x01/ofpt_vendor_stats_reply.dat *)
  [1; 16; 0; 32; 0; 0; 0; 4; 255; 255; 0; 0; 0; 0; 35; 32; 0; 0; 0; 0; 0; 0; 0; 0; 255; 255; 0; 0; 255; 0; 0; 0];
  (* raw/v0x04/ofpt_aggregate_stats.dat *)
  [4; 19; 0; 40; 0; 0; 0; 1; 0; 2; 0; 0; 0; 0; 0; 0; 0; 0; 0; 0; 0; 0; 0; 2; 0; 0; 0; 0; 0; 0; 0; 220; 0; 0; 0; 2; 0; 0; 0; 0];
  (* raw/v0x04/ofpt_aggregate_stats_request.dat *)
  [4; 18; 0; 56; 0; 0; 0; 1; 0; 2; 0; 0; 0; 0; 0; 0; 255; 0; 0; 0; 255; 255; 255; 255; 255; 255; 255; 255; 0; 0; 0; 0; 0; 0; 0; 0; 0; 0; 0; 0; 0; 0; 0; 0; 0; 0; 0; 0; 0; 1; 0; 4; 0; 0; 0; 0];
  (* raw/v0x04/ofpt_barrier_reply.dat *)
  [4; 21; 0; 8; 0; 0; 0; 5];
  (* raw/v0x04/ofpt_barrier_request.dat *)
  [4; 20; 0; 8; 0; 0; 0; 5];
  (* raw/v0x04/ofpt_echo_reply.dat *)
  [4; 3; 0; 8; 0; 0; 0; 0];
  (* raw/v0x04/ofpt_echo_request.dat *)
  [4; 2; 0; 8; 0; 0; 0; 0];
  (* raw/v0x04/ofpt_error.dat *)
  [4; 1; 0; 36; 0; 0; 0; 1; 0; 12; 0; 3; 4; 18; 0; 24; 0; 0; 0; 1; 0; 10; 0; 0; 0; 0; 0; 0; 0; 0; 0; 1; 0; 0; 0; 0];
  (* raw/v0x04/ofpt_features_reply.dat *)
  [4; 6; 0; 32; 0; 0; 0; 3; 0; 0; 0; 0; 0; 0; 0; 1; 0; 0; 0; 0; 254; 0; 0; 0; 0; 0; 0; 79; 0; 0; 0; 0];
  (* raw/v0x04/ofpt_features_request.dat *)
  [4; 5; 0; 8; 0; 0; 0; 3];
  (* raw/v0x04/ofpt_flow_mod.dat *)
  [4; 14; 0; 88; 132; 81; 38; 107; 0; 0; 0; 0; 0; 0; 0; 0; 0; 0; 0; 0; 0; 0; 0; 0; 0; 0; 0; 0; 0; 0; 3; 232; 255; 255; 255; 255; 255; 255; 255; 255; 255; 255; 255; 255; 0; 1; 0; 0; 0; 1; 0; 16; 128; 0; 10; 2; 136; 204; 128; 0; 12; 2; 30; 215; 0; 4; 0; 24; 0; 0; 0; 0; 0; 0; 0; 16; 255; 255; 255; 253; 255; 255; 0; 0; 0; 0; 0; 0];
  (* raw/v0x04/ofpt_flow_removed.dat *)
  [4; 11; 0; 64; 0; 0; 0; 0; 0; 0; 0; 0; 0; 0; 0; 0; 3; 232; 2; 0; 0; 0; 0; 77; 33; 81; 169; 192; 0; 0; 0; 0; 0; 0; 0; 0; 0; 0; 0; 0; 0; 0; 0; 0; 0; 0; 0; 0; 0; 1; 0; 16; 128; 0; 10; 2; 136; 204; 128; 0; 12; 2; 30; 215];
  (* raw/v0x04/ofpt_flow_stats.dat *)
  [4; 19; 0; 104; 172; 200; 223; 88; 0; 1; 0; 0; 0; 0; 0; 0; 0; 88; 0; 0; 0; 0; 0; 56; 37; 217; 84; 192; 3; 232; 0; 0; 0; 0; 0; 1; 0; 0; 0; 0; 0; 0; 0; 0; 0; 0; 0; 0; 0; 0; 0; 0; 0; 0; 0; 18; 0; 0; 0; 0; 0; 0; 2; 244; 0; 1; 0; 16; 128; 0; 10; 2; 136; 204; 128; 0; 12; 2; 30; 215; 0; 4; 0; 24; 0; 0; 0; 0; 0; 0; 0; 16; 255; 255; 255; 253; 255; 255; 0; 0; 0; 0; 0; 0];
  (* raw/v0x04/ofpt_flow_stats_request.dat *)
  [4; 18; 0; 56; 35; 53; 155; 79; 0; 1; 0; 0; 0; 0; 0; 0; 255; 0; 0; 0; 255; 255; 255; 255; 255; 255; 255; 255; 0; 0; 0; 0; 0; 0; 0; 0; 0; 0; 0; 0; 0; 0; 0; 0; 0; 0; 0; 0; 0; 1; 0; 4; 0; 0; 0; 0];
  (* raw/v0x04/ofpt_group_stats.dat *)
  [4; 19; 0; 88; 0; 0; 0; 1; 0; 6; 0; 0; 0; 0; 0; 0; 0; 72; 0; 0; 0; 0; 0; 1; 0; 0; 0; 0; 0; 0; 0; 0; 0; 0; 0; 0; 0; 0; 0; 0; 0; 0; 0; 0; 0; 0; 0; 0; 0; 0; 0; 14; 49; 227; 155; 64; 0; 0; 0; 0; 0; 0; 0; 0; 0; 0; 0; 0; 0; 0; 0; 0; 0; 0; 0; 0; 0; 0; 0; 0; 0; 0; 0; 0; 0; 0; 0; 0];
  (* raw/v0x04/ofpt_group_stats_request.dat *)
  [4; 18; 0; 24; 0; 0; 0; 1; 0; 6; 0; 0; 0; 0; 0; 0; 255; 255; 255; 252; 0; 0; 0; 0];
  (* raw/v0x04/ofpt_hello.dat *)
  [4; 0; 0; 16; 0; 0; 0; 62; 0; 1; 0; 8; 0; 0; 0; 16];
  (* raw/v0x04/ofpt_meter_multipart_request.dat *)
  [4; 18; 0; 24; 0; 0; 0; 1; 0; 9; 0; 0; 0; 0; 0; 0; 255; 255; 255; 255; 0; 0; 0; 0];
  (* raw/v0x04/ofpt_packet_in.dat *)
  [4; 10; 0; 132; 0; 0; 0; 0; 255; 255; 255; 255; 0; 90; 1; 0; 0; 0; 0; 0; 0; 0; 0; 0; 0; 1; 0; 12; 128; 0; 0; 4; 0; 0; 0; 2; 0; 0; 0; 0; 0; 0; 51; 51; 0; 0; 0; 22; 146; 253; 61; 42; 6; 12; 134; 221; 96; 0; 0; 0; 0; 36; 0; 1; 0; 0; 0; 0; 0; 0; 0; 0; 0; 0; 0; 0; 0; 0; 0; 0; 255; 2; 0; 0; 0; 0; 0; 0; 0; 0; 0; 0; 0; 0; 0; 22; 58; 0; 5; 2; 0; 0; 1; 0; 143; 0; 105; 84; 0; 0; 0; 1; 4; 0; 0; 0; 255; 2; 0; 0; 0; 0; 0; 0; 0; 0; 0; 1; 255; 42; 6; 12];
  (* raw/v0x04/ofpt_packet_out.dat *)
  [4; 13; 0; 82; 151; 173; 169; 197; 255; 255; 255; 255; 255; 255; 255; 253; 0; 16; 0; 0; 0; 0; 0; 0; 0; 0; 0; 16; 0; 0; 0; 1; 255; 255; 0; 0; 0; 0; 0; 0; 1; 128; 194; 0; 0; 14; 78; 191; 202; 39; 142; 202; 129; 0; 14; 215; 136; 204; 2; 9; 7; 0; 0; 0; 0; 0; 0; 0; 1; 4; 5; 7; 0; 0; 0; 1; 6; 2; 0; 120; 0; 0];
  (* raw/v0x04/ofpt_port_desc.dat *)
  [4; 19; 0; 208; 114; 70; 138; 192; 0; 13; 0; 0; 0; 0; 0; 0; 255; 255; 255; 254; 0; 0; 0; 0; 90; 238; 165; 160; 98; 79; 0; 0; 115; 49; 0; 0; 0; 0; 0; 0; 0; 0; 0; 0; 0; 0; 0; 0; 0; 0; 0; 1; 0; 0; 0; 1; 0; 0; 0; 0; 0; 0; 0; 0; 0; 0; 0; 0; 0; 0; 0; 0; 0; 0; 0; 0; 0; 0; 0; 0; 0; 0; 0; 1; 0; 0; 0; 0; 78; 191; 202; 39; 142; 202; 0; 0; 115; 49; 45; 101; 116; 104; 49; 0; 0; 0; 0; 0; 0; 0; 0; 0; 0; 0; 0; 0; 0; 0; 0; 4; 0; 0; 8; 64; 0; 0; 0; 0; 0; 0; 0; 0; 0; 0; 0; 0; 0; 152; 150; 128; 0; 0; 0; 0; 0; 0; 0; 2; 0; 0; 0; 0; 38; 31; 185; 94; 60; 199; 0; 0; 115; 49; 45; 101; 116; 104; 50; 0; 0; 0; 0; 0; 0; 0; 0; 0; 0; 0; 0; 0; 0; 0; 0; 4; 0; 0; 8; 64; 0; 0; 0; 0; 0; 0; 0; 0; 0; 0; 0; 0; 0; 152; 150; 128; 0; 0; 0; 0];
  (* raw/v0x04/ofpt_port_status.dat *)
  [4; 12; 0; 80; 0; 0; 0; 0; 2; 0; 0; 0; 0; 0; 0; 0; 0; 0; 0; 1; 0; 0; 0; 0; 98; 67; 229; 219; 53; 10; 0; 0; 115; 49; 45; 101; 116; 104; 49; 0; 0; 0; 0; 0; 0; 0; 0; 0; 0; 0; 0; 0; 0; 0; 0; 4; 0; 0; 8; 64; 0; 0; 0; 0; 0; 0; 0; 0; 0; 0; 0; 0; 0; 152; 150; 128; 0; 0; 0; 0];
  (* raw/v0x04/ofpt_set_config.dat *)
  [4; 9; 0; 12; 71; 155; 23; 45; 0; 0; 255; 255];
  (* experimenter *)
  [4; 4; 0; 16; 0; 0; 18; 52; 0; 0; 35; 32; 0; 0; 0; 9];
  (* get config request *)
  [4; 7; 0; 8; 0; 0; 18; 52];
  (* get config reply *)
  [4; 8; 0; 12; 0; 0; 18; 52; 0; 1; 0; 128];
  (* group mod with two buckets *)
  [4; 15; 0; 80; 0; 0; 18; 52; 0; 0; 1; 0; 0; 0; 0; 77; 0; 32; 0; 5; 0; 0; 0; 3; 255; 255; 255; 255; 0; 0; 0; 0; 0; 0; 0; 16; 0; 0; 0; 7; 255; 255; 0; 0; 0; 0; 0; 0; 0; 32; 0; 5; 0; 0; 0; 3; 255; 255; 255; 255; 0; 0; 0; 0; 0; 0; 0; 16; 0; 0; 0; 7; 255; 255; 0; 0; 0; 0; 0; 0];
  (* port mod *)
  [4; 16; 0; 40; 0; 0; 18; 52; 0; 0; 0; 3; 0; 0; 0; 0; 1; 2; 3; 4; 5; 6; 0; 0; 0; 0; 0; 1; 0; 0; 0; 1; 0; 0; 0; 32; 0; 0; 0; 0];
  (* table mod *)
  [4; 17; 0; 16; 0; 0; 18; 52; 3; 0; 0; 0; 0; 0; 0; 3];
  (* role request *)
  [4; 24; 0; 24; 0; 0; 18; 52; 0; 0; 0; 2; 0; 0; 0; 0; 0; 0; 1; 0; 0; 0; 0; 1];
  (* role reply *)
  [4; 25; 0; 24; 0; 0; 18; 52; 0; 0; 0; 3; 0; 0; 0; 0; 0; 0; 0; 0; 0; 0; 0; 12];
  (* get async request *)
  [4; 26; 0; 32; 0; 0; 18; 52; 0; 0; 0; 1; 0; 0; 0; 1; 0; 0; 0; 1; 0; 0; 0; 1; 0; 0; 0; 1; 0; 0; 0; 1];
  (* get async reply *)
  [4; 27; 0; 32; 0; 0; 18; 52; 0; 0; 0; 0; 0; 0; 0; 1; 0; 0; 0; 2; 0; 0; 0; 0; 0; 0; 0; 1; 0; 0; 0; 2];
  (* set async *)
  [4; 28; 0; 32; 0; 0; 18; 52; 0; 0; 0; 1; 0; 0; 0; 1; 0; 0; 0; 1; 0; 0; 0; 1; 0; 0; 0; 1; 0; 0; 0; 1];
  (* meter mod *)
  [4; 29; 0; 16; 0; 0; 18; 52; 0; 0; 0; 1; 0; 0; 0; 5]
].
