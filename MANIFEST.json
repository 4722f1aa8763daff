{
 "claims": [
  {
   "property": "C01",
   "status": "proved",
   "theorems": [
    "C01_double_entry",
    "C01_double_entry_refuted"
   ],
   "note": "For every schedule, crash and lock expiry, as long as no balance is created with the reconciliation flag in its metadata; the second theorem shows that proviso is needed."
  },
  {
   "property": "C02",
   "status": "proved",
   "theorems": [
    "C02_balance_is_journal",
    "C02_commits_are_visible",
    "C02_inflight_nonnegative",
    "C02_counters_nonnegative",
    "C02_counters_nonnegative_expiry_refuted",
    "C02_counters_nonnegative_split_refuted"
   ],
   "note": "Journal equation and inflight nonnegativity for every schedule, crash and lock expiry; the settled counters are nonnegative under the stated provisos, and the two refutations show the provisos are needed."
  },
  {
   "property": "C03",
   "status": "proved",
   "theorems": [
    "C03_serialisable"
   ],
   "note": "Refinement to a serial bookkeeper; with enable_queued_checks a negative QUEUED row is the only escape from the funds rule, as the specification says."
  },
  {
   "property": "C04",
   "status": "proved",
   "theorems": [
    "C04_no_overdraft",
    "C04_no_overdraft_metadata_refuted",
    "C04_no_overdraft_split_refuted"
   ],
   "note": "Under the provisos of the quantifier; the two refutations show that the metadata and split provisos are needed."
  },
  {
   "property": "C05",
   "status": "proved",
   "theorems": [
    "C05_post_all_or_nothing",
    "C05_commit_all_or_nothing",
    "C05_void_all_or_nothing"
   ],
   "note": "Every operation meets an arbitrary database state and the thread may die anywhere."
  },
  {
   "property": "C06",
   "status": "proved",
   "theorems": [
    "C06_reference_unique",
    "C06_used_reference_refused",
    "C06_reference_stays"
   ],
   "note": ""
  },
  {
   "property": "C07",
   "status": "proved",
   "theorems": [
    "C07_hold_budget",
    "C07_void_is_final",
    "C07_full_commit_is_final",
    "C07_hold_budget_expiry_refuted"
   ],
   "note": "The lock-expiry proviso is part of the property; the refutation shows it is needed."
  },
  {
   "property": "C08",
   "status": "partial",
   "theorems": [
    "C08_queued_hold_partial",
    "C08_queued_hold_refuted"
   ],
   "note": "Proved for each of the two ids separately; the sum over both ids is false of the code, as the refutation shows."
  },
  {
   "property": "C09",
   "status": "proved",
   "theorems": [
    "C09_commit_moves_held_money",
    "C09_void_releases_rest",
    "C09_void_leaves_no_trace"
   ],
   "note": "Per recorded step (every other counter of every balance is unchanged) and in total for a voided hold."
  },
  {
   "property": "C10",
   "status": "partial",
   "theorems": [
    "C10_partial_commit_partial",
    "C10_precise_commit",
    "C10_partial_commit_refuted"
   ],
   "note": "Proved for amounts of at least half a minor unit and for precise amounts. False below that: an amount that rounds to zero commits everything (C10_partial_commit_refuted)."
  },
  {
   "property": "C11",
   "status": "proved",
   "theorems": [
    "C11_refunded_at_most_once",
    "C11_refund_reverses",
    "C11_asked_twice_refuted"
   ],
   "note": "Any schedule, including lock expiry: uniqueness rests on the derived reference. Exactness for settled originals of positive amount. A refund is itself a transaction that can be refunded, and the second request for the refund of a transaction does that (C11_asked_twice_refuted)."
  },
  {
   "property": "C12",
   "status": "proved",
   "theorems": [
    "C12_posted_at_most_once",
    "C12_posted_as_accepted"
   ],
   "note": "Any schedule; the outcome is also shown to carry the accepted ends, currency and amount."
  },
  {
   "property": "C13",
   "status": "partial",
   "theorems": [
    "C13_recovery_settles_partial",
    "C13_others_cover",
    "C13_settled_means",
    "C13_taken_reference_is_final",
    "C13_taken_reference_refuted",
    "C13_scheduled_lost_refuted",
    "C13_recovery_only_queued",
    "C13_accepted_lost_refuted"
   ],
   "note": "A recorded QUEUED transaction is settled after more recovery passes than the configured attempts, under any interleaving (ids generated without collision, the attempt counter saved, passes not skipped for a rejected atomic sibling). The full property is false: the \"_q\" reference can be taken by a client for good, a scheduled transaction that lost its task is never recovered, and an accepted transaction can vanish before its goroutine records it."
  },
  {
   "property": "C14",
   "status": "proved",
   "theorems": [
    "C14_none_or_all",
    "C14_as_one_by_one",
    "C14_meanwhile",
    "C14_self_transfer_refuted"
   ],
   "note": "Balance version counters are not compared (a batch bumps each once). With enable_queued_checks on, the queued amount seen by a member depends on which rows already have children, so the comparison is not claimed. C14_self_transfer_refuted shows the one exception."
  },
  {
   "property": "C15",
   "status": "partial",
   "theorems": [
    "C15_permission_kept_partial",
    "C15_permission_kept_refuted"
   ],
   "note": "Flags are kept on every path and the limit is never raised except to none; the limit itself is lost when a worker coalesces or recovers the transaction (refuted)."
  },
  {
   "property": "C16",
   "status": "proved",
   "theorems": [
    "C16_split_is_fair",
    "C16_split_adds_up",
    "C16_entitlements_add_up",
    "C16_single_unit",
    "C16_nothing",
    "C16_split_is_fair_tiny_refuted",
    "C16_fixed_is_exact_refuted",
    "C16_improper_refused_refuted"
   ],
   "note": "The stronger readings (fixed legs always exact, impossible distributions refused, tiny shares handed out) are false of the code; each is refuted with a witness, and the statement carries the provisos."
  },
  {
   "property": "C17",
   "status": "proved",
   "theorems": [
    "C17_amount_is_rounded",
    "C17_rounding_is_unique",
    "C17_rounding_is_monotone",
    "C17_precise_amount_is_kept",
    "C17_conversion_is_stable",
    "C17_round_trip"
   ],
   "note": "Amounts are rationals: the JSON float64 to decimal.NewFromFloat step is outside the model."
  },
  {
   "property": "C18",
   "status": "proved",
   "theorems": [
    "C18_mutual_exclusion",
    "C18_held_in_redis",
    "C18_exclusion_after_expiry_refuted",
    "C18_failed_acquire_leaves_nothing",
    "C18_lost_reply_refuted",
    "C18_never_removes_others_lock",
    "C18_fixed_order",
    "C18_no_deadlock",
    "C18_resent_command_refuted",
    "C18_no_lock_is_forever"
   ],
   "note": "Refuted without the provisos: a lock whose lease ran out is held twice; a SET whose reply is lost (or whose request is cancelled after reaching the server) leaves the key locked after a failed acquisition; a SET resent by the Redis client makes the caller wait for itself until the lease ends."
  },
  {
   "property": "C19",
   "status": "proved",
   "theorems": [
    "C19_monitors_fire_exactly",
    "C19_each_fires_once",
    "C19_created_is_watched",
    "C19_deleted_is_gone",
    "C19_equality_refuted",
    "C19_updated_value_refuted",
    "C19_moved_monitor_refuted",
    "C19_concurrent_create_refuted"
   ],
   "note": "The table, the cache and overlapping lookups are modelled. Four refutations: '=' is accepted and never fires; updating the value keeps the old threshold; a monitor moved to another balance keeps firing for the old one; a monitor created during a lookup is missed while the stale cache entry lives. Floats are exact; thresholds are whole minor units within 64 bits."
  },
  {
   "property": "C20",
   "status": "proved",
   "theorems": [
    "C20_at_time_is_replay",
    "C20_now_is_present",
    "C20_snapshot_error_is_straddling",
    "C20_snapshot_agrees",
    "C20_always_answered",
    "C20_queued_refuted",
    "C20_future_dated_refuted",
    "C20_posted_during_run_refuted"
   ],
   "note": "Proved as stated, with the exact error of the snapshot path. The unconditional agreement a user would expect is false, and refuted three ways: a transaction waiting in the queue while the snapshot is taken is missed, a future-dated one is counted twice, and one posted while a run is between batches is counted twice."
  },
  {
   "property": "C21",
   "status": "proved",
   "theorems": [
    "C21_exactly_one_per_day",
    "C21_never_two",
    "C21_run_ends",
    "C21_snapshots_kept",
    "C21_snapshot_content",
    "C21_overlapping_runs_refuted"
   ],
   "note": "Proved for runs that do not overlap; two overlapping runs leave two snapshots for a day (refuted)."
  },
  {
   "property": "C22",
   "status": "proved",
   "theorems": [
    "C22_one_chain",
    "C22_sealed_once",
    "C22_round_seals_oldest",
    "C22_honest_chain_verifies",
    "C22_verifies_while_sealing"
   ],
   "note": "Each chaining transaction is split into lock, scan, single writes and commit; any number of workers; abort at any point."
  },
  {
   "property": "C23",
   "status": "proved",
   "theorems": [
    "C23_tampering_is_detected",
    "C23_altered_row_is_detected",
    "C23_gap_is_detected",
    "C23_truncation_is_detected_refuted",
    "C23_separator_refuted"
   ],
   "note": "Two gaps found in the code and refuted with witnesses for every hash: cutting off the newest rows still 'verifies' (with a smaller length), and '|' inside client-chosen fields makes different transactions hash alike. The statement carries both provisos."
  },
  {
   "property": "C24",
   "status": "proved",
   "theorems": [
    "C24_update_keeps_facts",
    "C24_facts_are_immutable",
    "C24_rows_stay"
   ],
   "note": "The trigger is modelled column by column; parent_transaction, effective_date and meta_data are not protected by the code and not claimed. Privileged DDL (dropping the trigger) and DELETE are outside the model."
  },
  {
   "property": "C25",
   "status": "proved",
   "theorems": [
    "C25_within_sources",
    "C25_sequential_total",
    "C25_proportional_total",
    "C25_proportional_share",
    "C25_proportional_exact_refuted",
    "C25_fifo_oldest_first",
    "C25_lifo_newest_first",
    "C25_never_overdrawn",
    "C25_holds_refuted"
   ],
   "note": "Full statement. C25_proportional_exact_refuted: the proportional strategy can allocate less than debit and funds (three sources of 1, debit 2: 1). C25_holds_refuted: inflight releases are not deducted from what is available, so two holds get the same money and settling both overdraws the provider. Lock leases are taken not to run out while their attempt lives."
  },
  {
   "property": "C26",
   "status": "partial",
   "theorems": [
    "C26_release_once",
    "C26_total_bounded",
    "C26_total_late_refuted",
    "C26_receives_released",
    "C26_from_and_to",
    "C26_handed_on_partial",
    "C26_received_refuted",
    "C26_credit_blocks_retry_refuted",
    "C26_counted_twice_refuted",
    "C26_retry_short_refuted",
    "C26_attempts_bounded",
    "C26_done_left_alone",
    "C26_waits_for_credit"
   ],
   "note": "Proved: at most one release per provider, total at most the amount while no attempt outlives its claim, receives only what was released, everything released by an attempt that ends is received, attempts bounded, settled entries left alone. Missing because false: a crash between release and receive loses the receive (C26_received_refuted); a named provider blocks all retries after the credit (C26_credit_blocks_retry_refuted) and is counted twice (C26_counted_twice_refuted); a late attempt releases twice (C26_total_late_refuted); a proportional retry stays short (C26_retry_short_refuted)."
  },
  {
   "property": "C27",
   "status": "partial",
   "theorems": [
    "C27_one_entry_partial",
    "C27_no_other_entries",
    "C27_journal_order",
    "C27_queued_hold_refuted",
    "C27_bulk_hold_refuted",
    "C27_spoofed_posting_refuted"
   ],
   "note": "Proved for every posting and every direct hold, in every reachable state, crashes included, together with the converse (no other entries). Holds that have a parent (queued, bulk member, split leg) get no entry, nor do their commits: refuted with concrete histories. Also refuted: a client sending the metadata key inflight hides a queued posting."
  },
  {
   "property": "C28",
   "status": "proved",
   "theorems": [
    "C28_same_source",
    "C28_hot_lane",
    "C28_existing_queue",
    "C28_queues_distinct",
    "C28_by_hash",
    "C28_negative_number_refuted"
   ],
   "note": "Full. The proviso on a negative number of queues is shown necessary by C28_negative_number_refuted."
  },
  {
   "property": "C29",
   "status": "proved",
   "theorems": [
    "C29_worker_safe",
    "C29_verdicts",
    "C29_negative_limit_refuted",
    "C29_acknowledged_unposted_refuted"
   ],
   "note": "Statement amended: \"recorded\" includes the case that the reference is in use, possibly by a foreign transaction, and the limit must be positive; both provisos are shown necessary by refutations. asynq itself (retry or archive) is modelled from its documented behaviour."
  },
  {
   "property": "C30",
   "status": "proved",
   "theorems": [
    "C30_changes_nothing",
    "C30_transaction",
    "C30_bulk",
    "C30_split",
    "C30_action",
    "C30_refund",
    "C30_one_meaning",
    "C30_queued_refuted",
    "C30_two_names_refuted",
    "C30_two_currencies_refuted",
    "C30_split_reference_refuted",
    "C30_split_nothing_refuted",
    "C30_split_odd_cent_refuted",
    "C30_voided_member_refuted",
    "C30_queued_hold_refuted",
    "C30_refund_reference_refuted"
   ],
   "note": "Prediction is proved for transactions, bulks and splits recorded synchronously, for commits and voids, and for refunds with skip_queue, in every reached state with no lock held; changing nothing for all dry runs under any interleaving. The provisos of the statement are refuted one by one. Commits and voids moreover assume that no lock expired under its owner (polite) and that no client used a reference the ledger has still to draw (new_refs). Of queued posts and queued refunds the dry run says nothing about the time of their execution, and no claim is made."
  },
  {
   "property": "C31",
   "status": "partial",
   "theorems": [
    "C31_restored_partial",
    "C31_rolled_back_partial",
    "C31_voided_partial",
    "C31_same_request",
    "C31_refunds_refuted",
    "C31_split_refuted"
   ],
   "note": "Proved for bulks of holds with unsplit members: undisturbed, every void of the rollback succeeds and every balance counter is back; under any schedule, every hold the bulk recorded is voided when the answer says so. Missing: that the rollback cannot fail while others are at work. Refuted for bulks that are not holds (refunds are only started, in the background, when the answer says \"refunded\") and for split members (the rollback does not find their legs)."
  },
  {
   "property": "C32",
   "status": "proved",
   "theorems": [
    "C32_lines_up",
    "C32_response",
    "C32_queued",
    "C32_queued_tells",
    "C32_checked",
    "C32_returns",
    "C32_codes",
    "C32_only_one_succeeds_refuted"
   ],
   "note": "The worker pool as a transition system over the ledger model: any schedule, any worker count, others at work in between. C32_returns: the pool terminates and is never stuck. C32_codes needs ids and currencies without spaces, since codes are found by searching the error text. C32_only_one_succeeds_refuted: the dry run's note that only one of two occurrences of an id can succeed is false for partial commits. C32_queued_tells and C32_checked: the queued variant; C32_checked compares the check with the single request on a state in which no lock is held (the check takes none)."
  },
  {
   "property": "C33",
   "status": "proved",
   "theorems": [
    "C33_exact",
    "C33_any_percentage",
    "C33_boundary_refuted",
    "C33_counts_every_queue",
    "C33_refusal_needs_reading",
    "C33_decisions",
    "C33_fresh_refuted"
   ],
   "note": "Exact for the default threshold over realistic byte counts; other thresholds up to float64 rounding, and C33_boundary_refuted shows that the rounding is real. C33_fresh_refuted: a verdict is timed by when it is written down, so it can be arbitrarily old. The two theorems that go through Flocq rest on the standard library's axioms of the real numbers."
  },
  {
   "property": "C34",
   "status": "proved",
   "theorems": [
    "C34_reconcile_changes_nothing",
    "C34_flag_at_creation_refuted"
   ],
   "note": "The flag present at creation is the exception, refuted by a concrete run."
  },
  {
   "property": "C35",
   "status": "proved",
   "theorems": [
    "C35_one_lane",
    "C35_hot_after_conflicts",
    "C35_promoted",
    "C35_stays_hot",
    "C35_back_to_normal",
    "C35_concurrent_refuted",
    "C35_fault_refuted",
    "C35_lapse_refuted",
    "C35_spelling_refuted",
    "C35_scheduled_refuted",
    "C35_cooling_refuted"
   ],
   "note": "Every proviso of the first claim is refuted when dropped; scheduled transactions are not counted and may wait in the other lane; conflicts of a pair that is cooling down are forgotten."
  },
  {
   "property": "C36",
   "status": "proved",
   "theorems": [
    "C36_counts",
    "C36_dry_run",
    "C36_sound",
    "C36_own_upload",
    "C36_once",
    "C36_total",
    "C36_group_once",
    "C36_other_upload_refuted",
    "C36_internal_once_refuted",
    "C36_external_once_refuted",
    "C36_missed_refuted",
    "C36_pages_refuted",
    "C36_finishes_refuted",
    "C36_stale_groups_refuted",
    "C36_resumes_refuted",
    "C36_failed_read_refuted",
    "C36_crash_refuted",
    "C36_unknown_strategy_refuted",
    "C36_rule_check",
    "C36_signs_agree",
    "C36_identical",
    "C36_bar_refuted",
    "C36_useless_rule_taken"
   ],
   "note": "The provisos are part of the English statement. The _refuted theorems show that each is needed, that 'one to one' does not make pairs (one internal transaction for several uploaded ones, several for one), that the search misses transactions that meet a rule, and that a reconciliation can hang for ever, be abandoned, crash the server or complete without looking at anything. 'Within the bounds of the search' is within_reach in ReconSpec.v. For many-to-one only counts, dry run and soundness of matches are claimed. A text with ' | ' does not match itself (C36_bar_refuted), and rules nothing can fulfil are taken (C36_useless_rule_taken)."
  },
  {
   "property": "C37",
   "status": "proved",
   "theorems": [
    "C37_entitled",
    "C37_answered",
    "C37_no_escalation",
    "C37_family",
    "C37_own_list",
    "C37_own_revoke",
    "C37_revoked",
    "C37_admitted",
    "C37_hooks",
    "C37_revoked_at_once_refuted",
    "C37_revoked_in_five_minutes_refuted",
    "C37_child_expires_refuted",
    "C37_child_revoked_refuted",
    "C37_out_of_reach",
    "C37_reading_needs_read_refuted"
   ],
   "note": "bcrypt is taken to be perfect, new ids and secrets to be new, and the cache library to look in memory first, then in Redis. The _refuted theorems show that a confirmed revocation does not take effect at once nor within five minutes (a check that overlaps with it writes the old copy back), that a key made with another key may outlive its expiry and revocation, and that a key without a read scope is let through to POST endpoints that read. C37_out_of_reach: endpoints no key can use."
  },
  {
   "property": "C38",
   "status": "proved",
   "theorems": [
    "C38_rewritten",
    "C38_same",
    "C38_same_floats",
    "C38_attributed",
    "C38_odd_altered",
    "C38_amount_refuted",
    "C38_accepted_refuted",
    "C38_attribution_refuted",
    "C38_bulk_attribution_refuted",
    "C38_case_refuted",
    "C38_panic_refuted"
   ],
   "note": "The provisos are part of the English statement. C38_odd_altered: every odd whole number above 2^53, precise_amount for instance, is silently altered on the way to the handler. The _refuted theorems show that each proviso is needed: altered and refused precise amounts, attribution chosen by the sender (a number out of range in any field; the items of a bulk), names that differ in case only, and a body that makes the server panic. Numbers with a fraction are left out of the model."
  },
  {
   "property": "C39",
   "status": "proved",
   "theorems": [
    "C39_listing",
    "C39_refused",
    "C39_values_apart",
    "C39_filters_any_order",
    "C39_query_string",
    "C39_query_text",
    "C39_query_number",
    "C39_query_whole",
    "C39_query_wrong",
    "C39_two_indicators_never_served",
    "C39_sort_by_side_never_served",
    "C39_nan_vanishes",
    "C39_pages_apart_refuted",
    "C39_query_text_kept_refuted",
    "C39_misspelt_operator_refuted"
   ],
   "note": "The model builds the actual query text; a separate lexer and parser of the SQL fragment, and a semantics over an arbitrary database, say what the database makes of it. C39_listing: taken, and answered with exactly the rows asked for. The provisos are theorems too (never_served, vanishes, refuted). Conversions that fail inside the database, such as (meta_data->>'k')::numeric on a text, are outside the semantics."
  },
  {
   "property": "C40",
   "status": "proved",
   "theorems": [
    "C40_kept",
    "C40_comes_and_goes",
    "C40_marks_stay",
    "C40_only_those",
    "C40_confirmed",
    "C40_revealed",
    "C40_revealed_all",
    "C40_listed",
    "C40_refused",
    "C40_colon_lost",
    "C40_colon_refuted",
    "C40_race_refuted",
    "C40_put_lost_refuted",
    "C40_overwrite_refuted",
    "C40_marks_refuted",
    "C40_half_refuted",
    "C40_not_hidden"
   ],
   "note": "Base 64, the visible part and the splitting at colons are modelled byte by byte; AES-GCM is any pair of functions of which the second opens what the first sealed. The four provisos of the statement are the hypothesis 'everything'; each has a refutation. C40_colon_lost: a value with a colon is lost for every cipher."
  },
  {
   "property": "C41",
   "status": "proved",
   "theorems": [
    "C41_txn_changes",
    "C41_one_changes",
    "C41_txn_confirmed",
    "C41_one_confirmed",
    "C41_refused",
    "C41_race_refuted",
    "C41_removed_refuted",
    "C41_answer_refuted"
   ],
   "note": "C41_txn_* need no proviso about interleavings. C41_one_* are for histories in which changes of one ledger, balance or identity come one after the other; C41_race_refuted and C41_removed_refuted show what happens otherwise. C41_answer_refuted: the answer for a transaction is not its whole metadata."
  },
  {
   "property": "C42",
   "status": "proved",
   "theorems": [
    "C42_as_submitted",
    "C42_calls_bounded",
    "C42_calls_eleven",
    "C42_accepted_once",
    "C42_standing_called",
    "C42_stage_answers",
    "C42_deleted_not_called",
    "C42_orderly_seen",
    "C42_orderly_answers",
    "C42_orderly_queued",
    "C42_tried",
    "C42_judged",
    "C42_update_keeps",
    "C42_alone_plays",
    "C42_undone_refuted",
    "C42_back_refuted",
    "C42_both_refuted",
    "C42_deleted_refuted",
    "C42_silent_refuted",
    "C42_never_dropped"
   ],
   "note": "All interleavings for what is sent, how often, to whom and not after deletion; the registry as seen for calls one after the other, under the provisos named in the statement, each refuted without (C42_undone_refuted, C42_back_refuted, C42_both_refuted, C42_deleted_refuted). C42_silent_refuted: an update is not validated."
  },
  {
   "property": "C43",
   "status": "proved",
   "theorems": [
    "C43_complete",
    "C43_refused",
    "C43_faulty",
    "C43_missed",
    "C43_taken",
    "C43_moves",
    "C43_ends",
    "C43_never_answered",
    "C43_answered_refuted",
    "C43_no_crash",
    "C43_cut_refuted",
    "C43_crash_refuted",
    "C43_amount_refuted",
    "C43_json",
    "C43_json_taken",
    "C43_json_whole_refuted",
    "C43_ids",
    "C43_twice"
   ],
   "note": "The statement carries its provisos; each is refuted when dropped (the _refuted theorems). C43_never_answered is a proved negative: with more faulty lines than workers no schedule answers."
  },
  {
   "property": "C44",
   "status": "proved",
   "theorems": [
    "C44_accounted",
    "C44_found",
    "C44_true",
    "C44_unchanged",
    "C44_noted",
    "C44_finishes",
    "C44_status",
    "C44_gate_running",
    "C44_gate",
    "C44_total",
    "C44_amount",
    "C44_amount_exact",
    "C44_amount_close",
    "C44_amount_some",
    "C44_amount_refuted",
    "C44_stale_refuted",
    "C44_order_refuted",
    "C44_put_refuted",
    "C44_ghost_refuted",
    "C44_delete_refuted",
    "C44_tie_refuted",
    "C44_reconciliations_refuted",
    "C44_alone_refuted",
    "C44_count_refuted",
    "C44_general_refuted",
    "C44_closed_refuted",
    "C44_given_up_refuted"
   ],
   "note": "C44_accounted and C44_found are the main claim, C44_true and C44_unchanged what is shown, C44_finishes that it can end. Each proviso in the statement has a _refuted theorem; so have the stronger claims one would expect (records changed meanwhile, tasks out of order, counts). C44_noted is the claim about ordinary tasks."
  },
  {
   "property": "C45",
   "status": "proved",
   "theorems": [
    "C45_line",
    "C45_once",
    "C45_no_negative",
    "C45_no_negative_holds_refuted",
    "C45_spent",
    "C45_complete",
    "C45_shared_refuted",
    "C45_unnoted_refuted"
   ],
   "note": "proved of the model of the lineage worker used for C25 and C26; the provisos in the statement are each shown to be needed by a _refuted theorem"
  },
  {
   "property": "C46",
   "status": "proved",
   "theorems": [
    "C46_announced",
    "C46_deliverable",
    "C46_waiting",
    "C46_truthful",
    "C46_amount_refuted",
    "C46_once",
    "C46_at_most",
    "C46_twice_refuted",
    "C46_unacked_refuted",
    "C46_same_text",
    "C46_apart",
    "C46_signed",
    "C46_unsigned",
    "C46_header_refuted",
    "C46_order_refuted",
    "C46_lost_refuted",
    "C46_given_up_refuted"
   ],
   "note": "the provisos in the statement are each shown to be needed by a _refuted theorem; the MAC and the JSON text are arbitrary functions; the number of attempts is that of the queue library's default"
  },
  {
   "property": "C47",
   "status": "proved",
   "theorems": [
    "C47_status",
    "C47_error",
    "C47_retired",
    "C47_hidden",
    "C47_leak_refuted",
    "C47_raw_refuted",
    "C47_codes",
    "C47_phrase_refuted",
    "C47_raced_refuted",
    "C47_away_refuted",
    "C47_created",
    "C47_created_recorded",
    "C47_recorded",
    "C47_definite",
    "C47_recorded_refuted",
    "C47_preview",
    "C47_preview_same_refuted",
    "C47_preview_both_refuted",
    "C47_settle",
    "C47_flat_refuted"
   ],
   "note": "the provisos in the statement are each shown to be needed by a _refuted theorem; C47_definite assumes that the text of a failing queue contains none of the table's phrases; the commit and void theorem is for a single refusal, several are answered by the first phrase of the table found in their joined text"
  },
  {
   "property": "C48",
   "status": "proved",
   "theorems": [
    "C48_history",
    "C48_fields",
    "C48_marked",
    "C48_keys",
    "C48_kept",
    "C48_text",
    "C48_short",
    "C48_second_refuted",
    "C48_plain_refuted",
    "C48_fragment_refuted",
    "C48_struct_refuted",
    "C48_equals_refuted",
    "C48_accounted",
    "C48_order",
    "C48_emptied",
    "C48_dropped",
    "C48_alive",
    "C48_closed_refuted"
   ],
   "note": "the provisos in the statement are each shown to be needed by a _refuted theorem; redactURL (net/url) is an arbitrary function u, so of addresses it is proved only that texts whose addresses u takes to the same are exported alike; keys are ASCII; texts mixing tokens, addresses and query values are covered kind by kind; that the HTTP request of the worker succeeds is not modelled (its failure is ignored by the code)"
  },
  {
   "property": "C49",
   "status": "proved",
   "theorems": [
    "C49_values",
    "C49_copies",
    "C49_apart",
    "C49_apart_transaction",
    "C49_applied",
    "C49_failed",
    "C49_failed_refuted",
    "C49_priced_refuted",
    "C49_preview"
   ],
   "note": "refinement of the in-place arithmetic by that of BalanceModel, which the other properties rest on; only the *big.Int fields are pointers in the model, maps and lists of the structs are not; Clone of these is by one level in the code and is not modelled; concurrent access to one object is not modelled (each request has its own objects)"
  },
  {
   "property": "C50",
   "status": "proved",
   "theorems": [
    "C50_entitled",
    "C50_limited",
    "C50_metrics",
    "C50_worker",
    "C50_same_refusal",
    "C50_headers",
    "C50_headers_refuted",
    "C50_held",
    "C50_tail",
    "C50_too_large",
    "C50_within",
    "C50_held_refuted",
    "C50_tail_refuted",
    "C50_too_large_refuted",
    "C50_named",
    "C50_key_reads",
    "C50_trailing",
    "C50_named_refuted",
    "C50_crash"
   ],
   "note": "the verdict of the rate limiter (tollbooth), the lookup of a key (its own model is that of C37), the presence of a route and the reading of JSON text are arguments the theorems quantify over; redirects gin makes for a trailing slash run before all middleware and are not modelled; the statement's exceptions are refuted one by one"
  },
  {
   "property": "C51",
   "status": "proved",
   "theorems": [
    "C51_no_panic",
    "C51_one_loop",
    "C51_stopped",
    "C51_started",
    "C51_stop_returns",
    "C51_start_during_stop_refuted",
    "C51_stop_during_start_refuted",
    "C51_stop_during_stop_refuted",
    "C51_cancelled_refuted"
   ],
   "note": "one model for the three copies of the code; memory is sequentially consistent although stopCh is read without the mutex; what a batch does is modelled for C26, C22 and C13; a WaitGroup reused while waited for may panic in Go, which needs overlapping calls and is not modelled"
  },
  {
   "property": "C52",
   "status": "proved",
   "theorems": [
    "C52_requests",
    "C52_led",
    "C52_handed",
    "C52_refused",
    "C52_answered",
    "C52_astray",
    "C52_blank",
    "C52_file_wins",
    "C52_no_source",
    "C52_example",
    "C52_port_refuted",
    "C52_downgrade_refuted",
    "C52_redirects_refuted",
    "C52_oversize_refuted",
    "C52_oversize_example"
   ],
   "note": "url.Parse, the resolution of a Location and the answers of the web are oracles; it is assumed that a parsed host has no blanks around it; DNS is outside the model, so a named host that resolves to an internal address is reached; ASCII case and blanks; the deadline is a number of requests"
  },
  {
   "property": "C53",
   "status": "proved",
   "theorems": [
    "C53_required",
    "C53_given",
    "C53_rate_given",
    "C53_names",
    "C53_lock_times",
    "C53_hot_pair_ttl",
    "C53_left_out",
    "C53_rates",
    "C53_environment_wins",
    "C53_apart",
    "C53_refused_keeps",
    "C53_accepted_replaces",
    "C53_example",
    "C53_off_refuted",
    "C53_zero_refuted",
    "C53_backpressure_refuted",
    "C53_sub_second_refuted",
    "C53_ttl_refuted",
    "C53_blank_refuted",
    "C53_burst_refuted"
   ],
   "note": "file and environment are maps from settings to values: how their texts are read (JSON decoder, envconfig) and the errors of that are outside the model; floats are rationals; webhook headers and the account number service, which are only passed on, are left out; the provisos of the statement are each shown necessary by a refutation"
  },
  {
   "property": "C54",
   "status": "proved",
   "theorems": [
    "C54_points",
    "C54_unique",
    "C54_created",
    "C54_when",
    "C54_refused",
    "C54_read",
    "C54_by_ledger_refuted",
    "C54_no_number_refuted",
    "C54_follows_refuted",
    "C54_list_refuted"
   ],
   "note": "one request is one step: a change of the balance's identity between the read and the insert is not interleaved; metadata and times left out; the database's unique and foreign keys are modelled as checks; the four refutations are about what validation, schema and listing promise beyond the statement"
  },
  {
   "property": "C55",
   "status": "proved",
   "theorems": [
    "C55_host_and_port",
    "C55_url",
    "C55_bare_password",
    "C55_no_scheme",
    "C55_checked",
    "C55_queue",
    "C55_cluster",
    "C55_user_refuted",
    "C55_secure_refuted",
    "C55_password_refuted"
   ],
   "note": "redis.ParseURL is an arbitrary function; of a TLS configuration only whether it exists and checks the certificate is kept; pool sizes, timeouts and the first ping are left out; the refutations bound the statement"
  },
  {
   "property": "C56",
   "status": "proved",
   "theorems": [
    "C56_one",
    "C56_lasting",
    "C56_others",
    "C56_resolves",
    "C56_same",
    "C56_in_use",
    "C56_fails_only"
   ],
   "note": "about the ledger model of C01-C15; the interference allowed between two operations is any operation at all, which is more than the threads can do (C56_others); the first read failing for another reason than the balance being absent is left out"
  },
  {
   "property": "C57",
   "status": "proved",
   "theorems": [
    "C57_when",
    "C57_where",
    "C57_unique",
    "C57_example",
    "C57_project_refuted"
   ],
   "note": "net/url is an arbitrary function; C57_where asks of it that a host is written as a text that is not empty and does not end with a slash; exporters configured by the OTEL variables and redirects of the HTTP client are left out"
  }
 ]
}
