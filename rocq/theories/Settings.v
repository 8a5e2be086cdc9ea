(** pyogp/lib/base/settings.py *)
From Verif Require Export Prelude.

Record settings := {
  HANDLE_PACKETS : bool;
  HANDLE_OUTGOING_PACKETS : bool;
  ENABLE_DEFERRED_PACKET_PARSING : bool;
  LOG_VERBOSE : bool;
  ENABLE_BYTES_TO_HEX_LOGGING : bool;
  ENABLE_CAPS_LOGGING : bool;
  ENABLE_CAPS_LLSD_LOGGING : bool;
  ENABLE_EQ_LOGGING : bool;
  ENABLE_UDP_LOGGING : bool;
  ENABLE_OBJECT_LOGGING : bool;
  LOG_SKIPPED_PACKETS : bool;
  ENABLE_HOST_LOGGING : bool;
  LOG_COROUTINE_SPAWNS : bool;
  PROXY_LOGGING : bool;
  DISABLE_SPAMMERS : bool;
  UDP_SPAMMERS : list string;
  ENABLE_REGION_EVENT_QUEUE : bool;
  REGION_EVENT_QUEUE_POLL_INTERVAL : Z;
  ENABLE_LOGGING_IN_TESTS : bool }.

(** settings.py:33-68, the defaults *)
Definition defaults : settings := {|
  HANDLE_PACKETS := true;
  HANDLE_OUTGOING_PACKETS := false;
  ENABLE_DEFERRED_PACKET_PARSING := true;
  LOG_VERBOSE := true;
  ENABLE_BYTES_TO_HEX_LOGGING := false;
  ENABLE_CAPS_LOGGING := true;
  ENABLE_CAPS_LLSD_LOGGING := false;
  ENABLE_EQ_LOGGING := true;
  ENABLE_UDP_LOGGING := true;
  ENABLE_OBJECT_LOGGING := true;
  LOG_SKIPPED_PACKETS := true;
  ENABLE_HOST_LOGGING := true;
  LOG_COROUTINE_SPAWNS := true;
  PROXY_LOGGING := false;
  DISABLE_SPAMMERS := true;
  UDP_SPAMMERS := ["PacketAck"; "AgentUpdate"]%string;
  ENABLE_REGION_EVENT_QUEUE := true;
  REGION_EVENT_QUEUE_POLL_INTERVAL := 1;
  ENABLE_LOGGING_IN_TESTS := true |}.

(** settings.py:70-73 *)
Definition apply_spammy (s : settings) : settings := {|
  HANDLE_PACKETS := HANDLE_PACKETS s;
  HANDLE_OUTGOING_PACKETS := HANDLE_OUTGOING_PACKETS s;
  ENABLE_DEFERRED_PACKET_PARSING := ENABLE_DEFERRED_PACKET_PARSING s;
  LOG_VERBOSE := LOG_VERBOSE s;
  ENABLE_BYTES_TO_HEX_LOGGING := true;
  ENABLE_CAPS_LOGGING := ENABLE_CAPS_LOGGING s;
  ENABLE_CAPS_LLSD_LOGGING := true;
  ENABLE_EQ_LOGGING := ENABLE_EQ_LOGGING s;
  ENABLE_UDP_LOGGING := ENABLE_UDP_LOGGING s;
  ENABLE_OBJECT_LOGGING := ENABLE_OBJECT_LOGGING s;
  LOG_SKIPPED_PACKETS := LOG_SKIPPED_PACKETS s;
  ENABLE_HOST_LOGGING := ENABLE_HOST_LOGGING s;
  LOG_COROUTINE_SPAWNS := LOG_COROUTINE_SPAWNS s;
  PROXY_LOGGING := PROXY_LOGGING s;
  DISABLE_SPAMMERS := false;
  UDP_SPAMMERS := UDP_SPAMMERS s;
  ENABLE_REGION_EVENT_QUEUE := ENABLE_REGION_EVENT_QUEUE s;
  REGION_EVENT_QUEUE_POLL_INTERVAL := REGION_EVENT_QUEUE_POLL_INTERVAL s;
  ENABLE_LOGGING_IN_TESTS := ENABLE_LOGGING_IN_TESTS s |}.

(** settings.py:76-87 *)
Definition apply_quiet (s : settings) : settings := {|
  HANDLE_PACKETS := HANDLE_PACKETS s;
  HANDLE_OUTGOING_PACKETS := HANDLE_OUTGOING_PACKETS s;
  ENABLE_DEFERRED_PACKET_PARSING := ENABLE_DEFERRED_PACKET_PARSING s;
  LOG_VERBOSE := false;
  ENABLE_BYTES_TO_HEX_LOGGING := false;
  ENABLE_CAPS_LOGGING := false;
  ENABLE_CAPS_LLSD_LOGGING := false;
  ENABLE_EQ_LOGGING := false;
  ENABLE_UDP_LOGGING := false;
  ENABLE_OBJECT_LOGGING := false;
  LOG_SKIPPED_PACKETS := false;
  ENABLE_HOST_LOGGING := false;
  LOG_COROUTINE_SPAWNS := false;
  PROXY_LOGGING := PROXY_LOGGING s;
  DISABLE_SPAMMERS := true;
  UDP_SPAMMERS := UDP_SPAMMERS s;
  ENABLE_REGION_EVENT_QUEUE := ENABLE_REGION_EVENT_QUEUE s;
  REGION_EVENT_QUEUE_POLL_INTERVAL := REGION_EVENT_QUEUE_POLL_INTERVAL s;
  ENABLE_LOGGING_IN_TESTS := ENABLE_LOGGING_IN_TESTS s |}.

(** settings.py:93-96 *)
Definition set_log_tests (s : settings) (b : bool) : settings := {|
  HANDLE_PACKETS := HANDLE_PACKETS s;
  HANDLE_OUTGOING_PACKETS := HANDLE_OUTGOING_PACKETS s;
  ENABLE_DEFERRED_PACKET_PARSING := ENABLE_DEFERRED_PACKET_PARSING s;
  LOG_VERBOSE := LOG_VERBOSE s;
  ENABLE_BYTES_TO_HEX_LOGGING := ENABLE_BYTES_TO_HEX_LOGGING s;
  ENABLE_CAPS_LOGGING := ENABLE_CAPS_LOGGING s;
  ENABLE_CAPS_LLSD_LOGGING := ENABLE_CAPS_LLSD_LOGGING s;
  ENABLE_EQ_LOGGING := ENABLE_EQ_LOGGING s;
  ENABLE_UDP_LOGGING := ENABLE_UDP_LOGGING s;
  ENABLE_OBJECT_LOGGING := ENABLE_OBJECT_LOGGING s;
  LOG_SKIPPED_PACKETS := LOG_SKIPPED_PACKETS s;
  ENABLE_HOST_LOGGING := ENABLE_HOST_LOGGING s;
  LOG_COROUTINE_SPAWNS := LOG_COROUTINE_SPAWNS s;
  PROXY_LOGGING := PROXY_LOGGING s;
  DISABLE_SPAMMERS := DISABLE_SPAMMERS s;
  UDP_SPAMMERS := UDP_SPAMMERS s;
  ENABLE_REGION_EVENT_QUEUE := ENABLE_REGION_EVENT_QUEUE s;
  REGION_EVENT_QUEUE_POLL_INTERVAL := REGION_EVENT_QUEUE_POLL_INTERVAL s;
  ENABLE_LOGGING_IN_TESTS := b |}.

(** settings.py:21-96, Settings(quiet_logging, spammy_logging, log_tests) *)
Definition mk_settings (quiet spammy log_tests : bool) : settings :=
  let s := defaults in
  let s := if spammy then apply_spammy s else s in
  let s := if quiet then apply_quiet s else s in
  set_log_tests s log_tests.
