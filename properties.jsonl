{"id": "C01", "title": "LevelBuilder accepts exactly complete, non-zero levels", "statement": "After any sequence of LevelBuilder::visitor_threshold / difficulty_factor calls, build() returns a Level iff a threshold was set and some non-zero difficulty factor was set, and that Level carries the last threshold and the last non-zero factor given; otherwise it returns SetVisitorThreshold (checked first) or SetDifficultyFactor. difficulty_factor(0) returns DifficultyFactorZero and changes nothing.", "quantifier": "every sequence of builder calls with every u32 argument", "why_tests_cant": "unit tests try three call sequences; the claim is about all of them", "anchors": ["src/defense.rs: LevelBuilder::{visitor_threshold,difficulty_factor,build}"]}
{"id": "C02", "title": "DefenseBuilder never holds two levels with one visitor threshold", "statement": "add_level returns DuplicateVisitorCount exactly when an earlier accepted level has the same visitor_threshold, in which case the builder is unchanged; otherwise the level is kept. build() never drops or invents levels, so after any interleaving of add_level and build the builder holds exactly the first level offered for each threshold.", "quantifier": "every interleaving of add_level and build calls", "why_tests_cant": "needs every history, including re-use of a builder after build()", "anchors": ["src/defense.rs: DefenseBuilder::{add_level,build}"]}
{"id": "C03", "title": "DefenseBuilder::build validates exactly the documented conditions", "statement": "build() returns Ok iff at least one level was accepted, none has factor 0 and factors do not decrease as thresholds increase; the Defense then holds a permutation of the accepted levels in strictly ascending threshold order and starts at its lowest level. Otherwise the error is LevelEmpty, DifficultyFactorZero or DecreaseingDifficultyFactor, in that order of precedence, each exactly under its condition. build() does not panic.", "quantifier": "every history of builder calls, every level list", "why_tests_cant": "tests use fixed five-level ladders already in order", "anchors": ["src/defense.rs: DefenseBuilder::build"]}
{"id": "C04", "title": "Defense ladder navigation is a clamped cursor over an unchanging ladder", "statement": "Starting from a built Defense, after any sequence of tighten_up/loosen_up/max_defense/min_defense the current level and difficulty are those at the clamped position; tighten at the top and loosen at the bottom change nothing; no call panics; the set of levels never changes.", "quantifier": "every sequence of navigation calls of any length on every buildable Defense", "why_tests_cant": "unbounded sequences; index arithmetic on usize", "anchors": ["src/defense.rs: Defense::{tighten_up,loosen_up,max_defense,min_defense,current_level,get_difficulty}"]}
{"id": "C05", "title": "Tightening never lowers and loosening never raises the difficulty", "statement": "For every reachable Defense, difficulty after tighten_up >= difficulty before, after loosen_up <= before, max_defense gives the largest configured factor and min_defense the smallest.", "quantifier": "every reachable Defense value", "why_tests_cant": "depends on the builder's ordering invariant for all ladders", "anchors": ["src/defense.rs: Defense", "src/defense.rs: DefenseBuilder::build"]}
{"id": "C06", "title": "[refuted] Defense::visitor_threshold returns the current level's visitor threshold", "statement": "Expected: Defense::visitor_threshold() equals current_level().visitor_threshold. The code violates this: it always returns the current level's difficulty_factor, and there is a buildable Defense where the two differ.", "quantifier": "every reachable Defense", "why_tests_cant": "no unit test calls the accessor; equality could hold by accident on sampled ladders", "anchors": ["src/defense.rs: Defense::visitor_threshold (lines 219-222)"]}
{"id": "C07", "title": "Higher difficulty factor means strictly more work", "statement": "With the documented formula difficulty = u128::MAX - u128::MAX / factor, for all u32 factors 1 <= f < g the difficulty of f is strictly below that of g, difficulty(1) = 0, and the formula is undefined (division by zero) only for factor 0, which no built Defense contains.", "quantifier": "all pairs of u32 difficulty factors", "why_tests_cant": "2^64 pairs of inputs", "anchors": ["src/defense.rs: doc lines 78-84 and 178-182", "src/defense.rs: DefenseBuilder::build"]}
{"id": "C08", "title": "MCaptchaBuilder::build validation", "statement": "After any sequence of setter calls, build() returns Ok iff a defense and a non-zero duration are set; the MCaptcha then has visitor count 0, the last defense and the last duration. Otherwise the error is PleaseSetValue(duration), PleaseSetValue(defense), CaptchaDurationZero in that precedence.", "quantifier": "every sequence of builder calls", "why_tests_cant": "all call orders and values", "anchors": ["src/mcaptcha.rs: MCaptchaBuilder"]}
{"id": "C09", "title": "Visitor count is exact saturating arithmetic and bookkeeping never panics below u32::MAX", "statement": "For every history of add_visitor / decrement_visitor_by on a built MCaptcha in which the count stays below 2^32, no call panics, get_visitors equals the +1 / saturating-subtract fold of the history, and duration and configured levels are unchanged; at 2^32-1 add_visitor panics in debug builds and wraps to 0 in release builds.", "quantifier": "every call history, both overflow profiles", "why_tests_cant": "needs all histories and the boundary at 2^32", "anchors": ["src/mcaptcha.rs: MCaptcha::{add_visitor,decrement_visitor_by,get_visitors}"]}
{"id": "C10", "title": "Difficulty always comes from the configured ladder and moves one level per visitor", "statement": "In every reachable MCaptcha get_difficulty is the factor of a configured level (hence non-zero and between the lowest and highest configured factor); one add_visitor moves the level by at most one, up iff the new count exceeds the current level's threshold, down otherwise, clamped at both ends; decrement_visitor_by never changes the level.", "quantifier": "every reachable state and call", "why_tests_cant": "needs the invariant over all histories", "anchors": ["src/mcaptcha.rs: MCaptcha::add_visitor", "src/mcaptcha.rs: MCaptcha::decrement_visitor_by"]}
{"id": "C11", "title": "With arrivals only, difficulty stays within one level of nominal", "statement": "If visitors only arrive, then after every arrival the current level is the nominal level for the visitor count (the number of thresholds strictly below it, capped at the top) or the one directly below it.", "quantifier": "every ladder, every number of arrivals", "why_tests_cant": "for all ladders and all counts", "anchors": ["src/mcaptcha.rs: MCaptcha::add_visitor"]}
{"id": "C12", "title": "[refuted] Difficulty is monotone in the visitor count", "statement": "Expected: as the visitor count increases the difficulty does not decrease. The code violates this: for every ladder and every count strictly between two consecutive thresholds, consecutive arrivals make the level alternate, so with the documented example ladder the 51st visitor gets the higher factor and the 52nd the lower one.", "quantifier": "every ladder with two levels, every arrival inside a gap", "why_tests_cant": "the existing test samples only an odd count, where the alternation happens to show the expected level", "anchors": ["src/mcaptcha.rs: MCaptcha::add_visitor (lines 93-101)", "src/master/embedded/counter.rs: tests::counter_defense_tightenup_works"]}
{"id": "C13", "title": "Sustained load reaches the top level, sustained calm the bottom level", "statement": "If, during a history containing at least (number of levels - 1) arrivals, the count seen at each arrival exceeds the highest threshold, the difficulty ends at (and stays at) the highest configured factor; if it never exceeds the lowest threshold, it ends at the lowest. Departures in between do not matter.", "quantifier": "every starting state and every interleaving of arrivals and departures", "why_tests_cant": "convergence from every state under every interleaving", "anchors": ["src/mcaptcha.rs: MCaptcha::{add_visitor,decrement_visitor_by}"]}
{"id": "C14", "title": "[refuted] After all visitors have left, the next visitor gets the lowest difficulty", "statement": "Expected: with visitor count 0 a new visitor is served at the lowest level. The code violates this: departures never loosen the level, so from a three-level ladder at the top a burst of departures to 0 still serves the next visitor at the middle level.", "quantifier": "every reachable state with count 0", "why_tests_cant": "existing loosen-up test uses a two-level ladder, where one arrival suffices", "anchors": ["src/mcaptcha.rs: MCaptcha::decrement_visitor_by", "src/mcaptcha.rs: MCaptcha::add_visitor"]}
{"id": "C15", "title": "Registration payload preserves the configuration", "statement": "Converting an MCaptcha into CreateMCaptcha keeps all levels in order and the duration, and rebuilding through DefenseBuilder/MCaptchaBuilder from that payload yields an MCaptcha with the same ladder and duration, reset to zero visitors and lowest level.", "quantifier": "every reachable MCaptcha", "why_tests_cant": "for all ladders", "anchors": ["src/mcaptcha.rs: From<MCaptcha> for CreateMCaptcha", "src/defense.rs: From<Defense> for Vec<Level>"]}
{"id": "C16", "title": "Visitor count is the number of arrivals in the last `duration` seconds", "statement": "For a Counter actor, under every schedule of arrivals, clock ticks and timer deliveries, the count is at least the number of arrivals younger than duration, exactly arrivals minus delivered expirations, and equals the number of arrivals younger than duration whenever no expiration is overdue.", "quantifier": "every timeline of arrivals and every (possibly late) delivery order of expiry timers", "why_tests_cant": "schedules and real time cannot be enumerated by tests", "anchors": ["src/master/embedded/counter.rs: Handler<AddVisitor>", "src/master/embedded/counter.rs: Handler<DeleteVisitor>"]}
{"id": "C17", "title": "AddVisitor replies with the post-arrival difficulty and the configured lifetime", "statement": "Every AddVisitor reply carries exactly the counter's duration and the difficulty of the level after counting this visitor; reads (visitor count, internal data) have no effect on later behaviour.", "quantifier": "every counter state and schedule", "why_tests_cant": "all states", "anchors": ["src/master/embedded/counter.rs: Handler<AddVisitor>", "src/master/mod.rs: AddVisitorResult::new"]}
{"id": "C18", "title": "Restoring internal data never over-counts", "statement": "After SetInternalData(m) on a Counter, whatever timers were pending before and under every later schedule, the count never exceeds (m's visitors until their bulk expiry has been delivered) plus later arrivals not yet expired; so with no overdue timer it is 0 once duration has elapsed without arrivals. The restored data takes over at once (the count is m's), and for a freshly started Counter the count is exactly m's visitors plus later arrivals not yet expired.", "quantifier": "every history before and after, any number of SetInternalData messages", "why_tests_cant": "unbounded histories with stale timers", "anchors": ["src/master/embedded/counter.rs: Handler<SetInternalData>", "src/master/embedded/counter.rs: Handler<BulkDecrement>"]}
{"id": "C19", "title": "[refuted] Restored visitors and later arrivals each live for the full duration", "statement": "Expected: after SetInternalData a visitor arriving later is counted for the whole duration. The code violates this: timers of visitors that were already counted before the restore keep firing, and with the bulk decrement they remove visitors that arrived later.", "quantifier": "every history with SetInternalData", "why_tests_cant": "requires a specific timer interleaving", "anchors": ["src/master/embedded/counter.rs: Handler<SetInternalData> (lines 201-219)"]}
{"id": "C20", "title": "A stopped counter answers nothing", "statement": "After Stop is handled, every later message to that Counter fails with MailboxError and no pending expiry has any observable effect.", "quantifier": "every later message sequence", "why_tests_cant": "for all continuations", "anchors": ["src/master/embedded/counter.rs: Handler<Stop>"]}
{"id": "C21", "title": "[refuted] A counter started from saved data eventually forgets its saved visitors", "statement": "Expected: visitors saved in an MCaptcha expire after duration once the MCaptcha is registered again (AddSite, which is also how SetInternalData restores unknown sites). The code violates this: a Counter started from an MCaptcha with v > 0 visitors has no expiry for them, so its count is v plus recent arrivals forever and garbage collection can never remove it.", "quantifier": "every v > 0 and every later schedule", "why_tests_cant": "`forever` is not testable", "anchors": ["src/master/embedded/master.rs: Handler<AddSite>", "src/master/embedded/master.rs: Handler<SetInternalData>", "src/master/embedded/counter.rs"]}
{"id": "C22", "title": "Site registry behaves like a map under every history", "statement": "Under every interleaving of AddSite, Rename, RemoveCaptcha, GetSite, AddVisitor, SetInternalData and garbage collection steps, the site found under a name is the counter of the latest registration/rename to that name not since removed; AddSite replaces, Rename moves (overwriting the target, no-op for unknown names), RemoveCaptcha deletes only that name.", "quantifier": "every interleaving of master messages and spawned tasks", "why_tests_cant": "unbounded interleavings", "anchors": ["src/master/embedded/master.rs: Master::{add_site,get_site,rm_site,rename}"]}
{"id": "C23", "title": "AddVisitor reaches exactly the named site's counter", "statement": "A Master AddVisitor(id) is answered Ok(None) iff id is not registered when handled; otherwise the counter registered under id at that moment, and only that one, counts one visitor and the reply is its AddVisitorResult, or MailboxError if that counter has stopped by the time it is reached. No other site's data changes.", "quantifier": "every master state and every interleaving between handling and delivery", "why_tests_cant": "concurrency and isolation for all sites", "anchors": ["src/master/embedded/master.rs: Handler<AddVisitor>"]}
{"id": "C24", "title": "Undisturbed garbage collection removes exactly the idle, previously used sites", "statement": "A CleanUp pass during which nothing else happens removes exactly the sites that have been looked up since registration and whose counter has zero visitors, stops exactly their counters, and leaves every other site, flag and counter unchanged.", "quantifier": "every master state, any number of sites", "why_tests_cant": "for all site maps", "anchors": ["src/master/embedded/master.rs: Handler<CleanUp>"]}
{"id": "C25", "title": "[refuted] Garbage collection never drops a visitor", "statement": "Expected: a site with a live visitor is not collected. The code violates this: a visitor counted after the cleanup read zero but before Stop is delivered is lost together with the counter.", "quantifier": "every interleaving of cleanup with AddVisitor", "why_tests_cant": "narrow race", "anchors": ["src/master/embedded/master.rs: Handler<CleanUp> (lines 167-190)"]}
{"id": "C26", "title": "[refuted] Garbage collection only removes the registration it inspected", "statement": "Expected: cleanup removes only the counter it found idle. The code violates this: it removes by name, so a site re-registered under that name during the pass is removed although never inspected.", "quantifier": "every interleaving of cleanup with AddSite", "why_tests_cant": "narrow race", "anchors": ["src/master/embedded/master.rs: Handler<CleanUp>", "src/master/embedded/master.rs: Handler<RemoveCaptcha>"]}
{"id": "C27", "title": "[refuted] A registered site always answers", "statement": "Expected: a name that the master lists has a working counter. The code violates this: a Rename during a cleanup pass leaves the new name bound to a stopped counter, which answers MailboxError.", "quantifier": "every interleaving of cleanup with Rename", "why_tests_cant": "narrow race", "anchors": ["src/master/embedded/master.rs: Handler<CleanUp>", "src/master/embedded/master.rs: Master::rename"]}
{"id": "C28", "title": "[refuted] The master survives concurrent removals", "statement": "Expected: RemoveCaptcha during garbage collection is harmless. The code violates this: if a counter in the cleanup snapshot stops before it is queried or stopped by the pass, the cleanup task unwraps a MailboxError and the master actor dies, after which no message is answered.", "quantifier": "every interleaving of cleanup with RemoveCaptcha", "why_tests_cant": "narrow race", "anchors": ["src/master/embedded/master.rs: Handler<CleanUp> (line 174 unwrap)"]}
{"id": "C29", "title": "Saved internal data is complete and faithful", "statement": "An undisturbed GetInternalData returns exactly the registered names whose counter is alive, each with that counter's current MCaptcha, and changes nothing.", "quantifier": "every master state", "why_tests_cant": "for all site maps", "anchors": ["src/master/embedded/master.rs: Handler<GetInternalData>"]}
{"id": "C30", "title": "Restoring internal data installs it under every listed name", "statement": "After an undisturbed SetInternalData(data), every name in data is registered and (if its counter was alive or absent) GetInternalData reports exactly the given MCaptcha for it; names not in data are unaffected.", "quantifier": "every master state and data map", "why_tests_cant": "for all maps", "anchors": ["src/master/embedded/master.rs: Handler<SetInternalData>"]}
{"id": "C31", "title": "RemoveCaptcha removes the site and stops its counter", "statement": "After RemoveCaptcha(id) is handled, id is unregistered (AddVisitor(id) answers Ok(None)) until registered again; its counter is stopped once the stop message is delivered, and the removal is then answered Ok, or with an error if the counter had stopped before; other sites are unaffected; removing an unknown name answers Ok and changes nothing.", "quantifier": "every master state", "why_tests_cant": "for all states", "anchors": ["src/master/embedded/master.rs: Handler<RemoveCaptcha>"]}
{"id": "C32", "title": "A cached challenge is returned exactly as cached and at most once", "statement": "Over every history of cache messages, RetrivePoW(token) returns Some(c) iff the latest CachePoW for that string carried c's key, factor and duration and no RetrivePoW, DeletePoW or delivered expiry for that string happened since; in particular a second RetrivePoW without re-caching returns None, whatever key it names.", "quantifier": "every history of messages and timer deliveries", "why_tests_cant": "replay protection over all histories", "anchors": ["src/cache/hashcache.rs: save_pow_config, retrive_pow_config, remove_pow_config, Handler<CachePoW>, Handler<RetrivePoW>"]}
{"id": "C33", "title": "A token validates at most once and only for its site", "statement": "Over every history, VerifyCaptchaResult(token,key) answers true iff the latest CacheResult for that token named exactly that key and no VerifyCaptchaResult (with any key), DeleteCaptchaResult or delivered expiry for that token happened since.", "quantifier": "every history of messages and timer deliveries", "why_tests_cant": "replay protection over all histories", "anchors": ["src/cache/hashcache.rs: save_captcha_result, verify_captcha_result, remove_cache_result"]}
{"id": "C34", "title": "Cache entries expire: never usable after their duration, never removed before it", "statement": "Whenever no expiry is overdue, a challenge or token is usable only if it was cached less than its duration ago; and a challenge or token cached once and not consumed is usable until its duration has elapsed, under every schedule.", "quantifier": "every timeline and timer delivery order", "why_tests_cant": "real time and schedules", "anchors": ["src/cache/hashcache.rs: Handler<CachePoW>", "src/cache/hashcache.rs: Handler<CacheResult>", "src/cache/hashcache.rs: Handler<DeletePoW>", "src/cache/hashcache.rs: Handler<DeleteCaptchaResult>"]}
{"id": "C35", "title": "[refuted] Re-caching a string restarts its lifetime", "statement": "Expected: after CachePoW the challenge is retrievable for msg.duration. The code violates this for a string cached before: the first caching's expiry timer deletes the newer entry early.", "quantifier": "every history in which a string is cached twice", "why_tests_cant": "requires a specific timeline", "anchors": ["src/cache/hashcache.rs: Handler<CachePoW> (lines 98-121)"]}
{"id": "C36", "title": "Challenges and tokens do not interfere", "statement": "Messages about challenges never change the answer to any token query and vice versa; a message about one string never changes the answer for another string.", "quantifier": "every history and every pair of distinct strings", "why_tests_cant": "non-interference for all pairs", "anchors": ["src/cache/hashcache.rs: HashCache"]}
{"id": "C37", "title": "[refuted] A validation attempt with a wrong key leaves the token usable", "statement": "Expected: validating someone's token under a wrong site key does not affect the rightful site. The in-memory cache violates this: every attempt with a wrong key consumes the token (for all tokens and keys), whereas the Redis cache keeps it.", "quantifier": "every token and every wrong key", "why_tests_cant": "the existing test tries the wrong key only after the token was already used", "anchors": ["src/cache/hashcache.rs: verify_captcha_result", "src/redis/mcaptcha_redis.rs: get_token"]}
{"id": "C38", "title": "No accepted job is lost or duplicated", "statement": "At every point of every execution of the work queue, the jobs whose Manager::add was answered Ok are exactly the jobs waiting in an IP queue, waiting at a runner, running, or finished, each exactly once; a job answered QueueFull is never run; calls are answered in order, each about its own IP.", "quantifier": "every interleaving of clients, manager thread and any number of runner threads", "why_tests_cant": "thread interleavings", "anchors": ["src/queue.rs: InnerManager::{schedule,dispatch,dispatch_to,run}", "src/queue.rs: RunnerThread::run"]}
{"id": "C39", "title": "Jobs of one IP are handed to runners in arrival order", "statement": "For every IP, the jobs handed to runners are, in hand-out order, a prefix of the accepted jobs of that IP in acceptance order, the rest waiting in that order.", "quantifier": "every execution", "why_tests_cant": "thread interleavings", "anchors": ["src/queue.rs: InnerManager::{schedule,dispatch_to}"]}
{"id": "C40", "title": "The manager thread never panics", "statement": "For every number of workers and queue length and every execution, no index, subtraction or unwrap in dispatch_to / dispatch / schedule fails, so the dispatcher thread stays alive until shutdown and answers every request it takes.", "quantifier": "every execution, every workers and queue_length including 0", "why_tests_cant": "index arithmetic under all histories", "anchors": ["src/queue.rs: InnerManager::dispatch_to (len()-1, unwrap)", "src/queue.rs: InnerManager::dispatch"]}
{"id": "C41", "title": "QueueFull exactly when queue_length distinct IPs are known", "statement": "add is answered QueueFull iff the number of distinct IPs ever accepted equals queue_length; the number of IP queues never exceeds queue_length.", "quantifier": "every execution", "why_tests_cant": "for all histories", "anchors": ["src/queue.rs: InnerManager::schedule"]}
{"id": "C42", "title": "[refuted] A full queue recovers once its work is done", "statement": "Expected: QueueFull is a back-pressure signal that clears when queued work completes. The code violates this: IP queues are never removed, so after queue_length distinct IPs every later add from any IP, known or new, is rejected forever.", "quantifier": "every continuation of every full state", "why_tests_cant": "`forever` over all continuations", "anchors": ["src/queue.rs: InnerManager::schedule (lines 161-178)"]}
{"id": "C43", "title": "Round-robin fairness", "statement": "An IP with waiting jobs has its first job handed out after at most queue_length dispatch attempts, however many other jobs or new IPs arrive meanwhile; every accepted job causes `workers` dispatch attempts and every finished job one more, made or still pending.", "quantifier": "every execution and every IP", "why_tests_cant": "starvation freedom over all executions", "anchors": ["src/queue.rs: InnerManager::dispatch_to"]}
{"id": "C44", "title": "[refuted] Every accepted job is eventually run", "statement": "Expected: a job whose add was answered Ok is eventually run. The code violates this: dispatch tries only one IP per free runner, so a reachable quiescent state has all runners idle, nothing in any channel and an accepted job waiting; it stays there until some other client adds work.", "quantifier": "every execution; quiescent states", "why_tests_cant": "liveness; lost wake-up needs a specific history", "anchors": ["src/queue.rs: InnerManager::dispatch_to", "src/queue.rs: InnerManager::schedule"]}
{"id": "C45", "title": "With at least as many runners as distinct IPs nothing waits", "statement": "As long as the number of distinct IPs seen does not exceed the number of runners, every accepted job is handed to a runner before its add is answered.", "quantifier": "every execution with that many runners", "why_tests_cant": "for all histories", "anchors": ["src/queue.rs: InnerManager::dispatch"]}
{"id": "C46", "title": "Shutdown runs what was handed out and nothing else", "statement": "When the Manager is dropped, every job handed to a runner before the stop message is run before that runner exits, jobs still waiting in IP queues are never run, and nothing is handed out afterwards.", "quantifier": "every execution and every point of dropping the manager", "why_tests_cant": "shutdown races", "anchors": ["src/queue.rs: Drop for Manager, Drop for InnerManager, RunnerThread::run"]}
{"id": "C47", "title": "Proof verdict is positive iff the work is sufficient and valid", "statement": "The first value a QueuedWork delivers is true iff the proof meets the difficulty factor and is a valid proof for the string; validate performs at most three sends.", "quantifier": "every proof, string and factor, every verdict of the PoW library", "why_tests_cant": "all inputs; the code lacks early returns so correctness rests on message order", "anchors": ["src/pow.rs: QueuedWork::validate"]}
{"id": "C48", "title": "[refuted] A runner never waits for a client", "statement": "Expected: checking a proof never blocks a runner thread. The code violates this: for a proof that is both insufficient and invalid, three values are sent into a two-slot channel, so the runner blocks until the client consumes a value or goes away. Nothing else ever blocks a runner: one that can neither send nor finish runs such work, and its sender is still there.", "quantifier": "every proof failing both checks", "why_tests_cant": "needs a slow client", "anchors": ["src/pow.rs: QueuedWork::validate (lines 98-117)"]}
{"id": "C49", "title": "get_pow issues a challenge that is cached with the issued parameters", "statement": "get_pow(id) returns None (or an error) unless the master counted a visitor for id; when it returns a PoWConfig, that string was cached under key id with exactly the returned difficulty factor and the master's duration, and the salt is the configured one.", "quantifier": "every interleaving with other requests", "why_tests_cant": "concurrency, all ids", "anchors": ["src/system.rs: System::get_pow"]}
{"id": "C50", "title": "verify_pow success is sound", "statement": "If verify_pow(work) returns Ok((token, d)), then a challenge work.string had been issued by get_pow for site work.key with difficulty d, not consumed by any earlier verify_pow, and work is sufficient for d and valid for that string; and token has been cached for site work.key with the challenge's duration.", "quantifier": "every interleaving of any number of concurrent get_pow / verify_pow / validate calls, expiries, cancellations", "why_tests_cant": "authentication property over all executions", "anchors": ["src/system.rs: System::verify_pow"]}
{"id": "C51", "title": "Each issued challenge is accepted at most once", "statement": "In every execution the number of successful verify_pow calls for a string is at most the number of times that string was issued; with distinct issued strings, at most one.", "quantifier": "every execution", "why_tests_cant": "replay protection over all executions", "anchors": ["src/system.rs: System::verify_pow", "src/cache/hashcache.rs: retrive_pow_config"]}
{"id": "C52", "title": "Each minted token is accepted at most once, only for the solved site", "statement": "In every execution validate_verification_tokens(token,key) answers true at most once per minting of token by verify_pow, and only if that verify_pow was for site key.", "quantifier": "every execution", "why_tests_cant": "end-to-end authorization over all executions", "anchors": ["src/system.rs: System::{verify_pow,validate_verification_tokens}", "src/cache/hashcache.rs: verify_captcha_result"]}
{"id": "C53", "title": "Failed verification consumes the challenge and mints nothing", "statement": "A verify_pow that finds the challenge and then fails (wrong key, insufficient or invalid work, QueueFull, cancellation before the token is stored) leaves no token and the challenge can never be verified again unless re-issued.", "quantifier": "every execution", "why_tests_cant": "all failure points", "anchors": ["src/system.rs: System::verify_pow"]}
{"id": "C54", "title": "Honest work is accepted", "statement": "A client that submits sufficient, valid work for a live challenge of its own site, with queue capacity and a runner that takes the job, gets Ok with the issued difficulty and a token that validates true for that site before it expires.", "quantifier": "every reachable system state with a live challenge", "why_tests_cant": "all states", "anchors": ["src/system.rs: System"]}
{"id": "C55", "title": "[refuted] Invalid proofs are reported as InvalidPoW", "statement": "Expected: work that meets the difficulty but is not a valid proof is answered InvalidPoW. The code violates this: no execution of verify_pow ever returns InvalidPoW; such work is answered InsuffiencientDifficulty.", "quantifier": "every execution", "why_tests_cant": "absence over all executions", "anchors": ["src/system.rs: System::verify_pow (lines 162-187)", "src/errors.rs: CaptchaError::InvalidPoW"]}
{"id": "C56", "title": "[refuted] verify_pow always terminates", "statement": "Expected: verify_pow returns. The code violates this: in a reachable state an honest client's job sits in an IP queue with every runner idle, and verify_pow polls forever as long as no other client submits work.", "quantifier": "every continuation without new submissions", "why_tests_cant": "liveness", "anchors": ["src/system.rs: System::verify_pow (lines 162-175)", "src/queue.rs"]}
{"id": "C57", "title": "SystemBuilder::build needs all five parts", "statement": "build() yields a System iff master, cache, pow, runners and queue_length were all set (last value of each is used); otherwise it panics.", "quantifier": "every sequence of setter calls", "why_tests_cant": "all call sequences", "anchors": ["src/system.rs: SystemBuilder"]}
{"id": "C58", "title": "Random strings have the requested length and alphabet", "statement": "get_random(len) always yields len characters, all ASCII alphanumeric, for every random source; so minted tokens never contain the Redis key separator. It ends as soon as enough usable words were drawn, every alphanumeric string can come out, and none is likelier than another of the same length: the sequences of random words that give the one correspond one to one to those that give the other.", "quantifier": "every length and every random draw sequence", "why_tests_cant": "all random draws", "anchors": ["src/utils.rs: get_random"]}
{"id": "C59", "title": "Redis-backed tokens validate at most once, only for their site, only while alive", "statement": "Against a Redis server with SET..EX / DEL semantics, for every history of add_token / get_token / delete_token, get_token(key,token) answers true iff a token stored for the same Redis key is unexpired and not since consumed or deleted.", "quantifier": "every command history and time", "why_tests_cant": "all histories", "anchors": ["src/redis/mcaptcha_redis.rs: add_token, get_token, delete_token"]}
{"id": "C60", "title": "[refuted] Redis token keys identify (site, token)", "statement": "Expected: a token minted for one site is never accepted for another. The code violates this: the key mcaptcha:token:{key}:{token} is ambiguous, so a token t of site \"a:b\" validates for site \"a\" as token \"b:t\". If site names contain no ':' the key is injective and the property holds.", "quantifier": "every pair of site names and tokens", "why_tests_cant": "all strings", "anchors": ["src/redis/mcaptcha_redis.rs: add_token, get_token"]}
{"id": "C61", "title": "Redis replies are interpreted totally and consistently", "statement": "check_captcha_exists maps the integer reply 1 to false, 0 to true and every other 64-bit integer to MCaptchaRedisModuleError; get_token maps 1 to true, 0 to false and every other 32-bit integer to that error (larger replies are taken modulo 2^32). Server and connection errors surface as RedisError from every operation but add_token, which panics. A visit or challenge sent as JSON is returned unchanged; text that is no visit panics. Where a number is expected, text is read as the decimal number it is (with an optional sign) if that fits the type, and any other reply is an error. ping is true exactly for the status PONG.", "quantifier": "every reply of the server", "why_tests_cant": "all replies", "anchors": ["src/redis/mcaptcha_redis.rs: check_captcha_exists, get_token"]}
{"id": "C62", "title": "[refuted] The module check accepts every server that has the module", "statement": "Expected: MCaptchaRedis::new succeeds when mcaptcha_cache is among the loaded modules and its commands exist. The code violates this: only the first entry of MODULE LIST is inspected. The commands checked are exactly those of the module that the client ever sends.", "quantifier": "every module list", "why_tests_cant": "needs a server with several modules", "anchors": ["src/redis/mcaptcha_redis.rs: is_module_loaded (lines 71-110)"]}
{"id": "C63", "title": "Redis and in-memory challenge caches differ on a wrong key", "statement": "With the in-memory cache a verify_pow naming a wrong site key for an existing challenge fails with MCaptchaKeyValidationFail and consumes the challenge; with the Redis cache the site key is part of the lookup, the only command sent names the key the client gave, a found challenge always carries that key, and a missing one is an error rather than Ok(None); so MCaptchaKeyValidationFail is never returned.", "quantifier": "every key, string and server reply", "why_tests_cant": "all inputs", "anchors": ["src/cache/redis.rs: Handler<RetrivePoW>", "src/cache/hashcache.rs: retrive_pow_config", "src/system.rs: System::verify_pow"]}
{"id": "C64", "title": "[refuted] A panicking job affects only itself", "statement": "Expected: if one submitted job panics, other submissions are still served. The code violates this: the panic kills the runner thread; handing the next job to that runner makes the dispatcher's send().unwrap() panic, unwinding drops the InnerManager, whose own send(Stop).unwrap() panics again during unwinding, which aborts the whole process. From every state after a job panicked, as long as the queue has room, at most one submission per runner up to the dead one and one more suffice for that, and one, of an IP already known, if more IPs are known than runners come before the dead one. Jobs already handed to the dead runner are never run although add answered Ok. Dropping the queue after a job panicked never completes normally. Nothing but a job that panicked ever brings the dispatcher or the process down.", "quantifier": "every execution with any number of runners, IPs and panics", "why_tests_cant": "needs a panicking job and the interaction of three threads' panics", "anchors": ["src/queue.rs: Runner::run, InnerManager::dispatch_to, Drop for InnerManager"]}
{"id": "C65", "title": "[refuted] The failure of one site's counter stays local", "statement": "Expected: when one site's counter stops (a client that looked it up sends it Stop, its ladder is empty after a restore, or its count overflows in a checked build), other sites keep working. The code violates this: the next cleanup pass queries every registered counter, unwraps the MailboxError of the stopped one and takes the whole master down, after which no message is answered. Conversely nothing but a cleanup pass meeting a stopped counter that was registered when the pass began kills the master.", "quantifier": "every reachable master state with a stopped registered counter; every step of every run for the converse", "why_tests_cant": "needs a fault in one actor combined with a later periodic task", "anchors": ["src/master/embedded/master.rs: Handler<CleanUp> (line 173 unwrap)", "src/master/embedded/counter.rs: Handler<Stop>"]}
{"id": "C66", "title": "Data written as JSON is read back unchanged", "statement": "For every public serializable type (levels, defenses, sites, dumps of all sites, challenge and token messages, work, PoW configuration, registration messages), serializing to JSON and deserializing yields the same value, for every string content and every number in range; a site in use keeps its count and ladder position; member order does not matter.", "quantifier": "every value of every type", "why_tests_cant": "all strings and numbers", "anchors": ["src/defense.rs: Level, Defense", "src/mcaptcha.rs: MCaptcha", "src/master/mod.rs", "src/cache/mod.rs", "src/pow.rs"]}
{"id": "C67", "title": "[refuted] Deserialized sites obey the builders' rules", "statement": "Expected: an MCaptcha or Defense obtained from serialized data has a non-empty ladder, a valid position and a non-zero duration, as one obtained from the builders does. The code violates this: deserialization accepts every value the field types allow, and a site whose position lies outside its ladder panics on the first visitor.", "quantifier": "every value of the field types", "why_tests_cant": "all inputs to the deserializer", "anchors": ["src/defense.rs: derive(Deserialize) for Defense", "src/mcaptcha.rs: derive(Deserialize) for MCaptcha"]}
{"id": "C68", "title": "What is registered with Redis is the site and the challenge", "statement": "The payload sent by AddSite to Redis decodes to exactly the levels and the duration of the site, which rebuild that site through the builders; the payload sent by CachePoW decodes to exactly the challenge string, difficulty and duration.", "quantifier": "every site in use and every challenge", "why_tests_cant": "all values and strings", "anchors": ["src/redis/mcaptcha_redis.rs: add_mcaptcha, add_challenge", "src/mcaptcha.rs: From<MCaptcha> for CreateMCaptcha"]}
{"id": "C69", "title": "[refuted] The Redis cache survives callers that go away", "statement": "Expected: a caller that uses do_send, or drops its request while Redis is being asked, loses only its own answer. The code violates this: the cache actor panics when it cannot deliver the answer; every waiting and every later request of every client fails. With callers that wait, no Redis error in reply to storing a token, decodable challenges and a connection of its own it never dies.", "quantifier": "every message using Redis, every reply, every other client; for the converse every execution", "why_tests_cant": "needs a cancelled request racing a network reply", "anchors": ["src/cache/redis.rs: handlers (tx.send(res).unwrap())"]}
{"id": "C70", "title": "The Redis Master survives callers that go away", "statement": "Without GetInternalData/SetInternalData, with decodable visit replies and a connection of its own (or a cluster), the Redis Master never dies and no request fails, whatever messages are sent, whichever callers go away and whatever errors Redis reports.", "quantifier": "every execution", "why_tests_cant": "all interleavings of requests, cancellations and replies", "anchors": ["src/master/redis/master.rs"]}
{"id": "C71", "title": "[refuted] A Redis Master can be dumped and restored", "statement": "Expected: GetInternalData and SetInternalData work for every Master. The code violates this: with the Redis Master either message kills the actor; it is not answered, and every waiting and later request fails.", "quantifier": "every idle state and every queue of waiting requests", "why_tests_cant": "a whole-actor failure", "anchors": ["src/master/redis/master.rs: Handler<GetInternalData>, Handler<SetInternalData>"]}
{"id": "C72", "title": "Requests to the actors in front of Redis are settled exactly once, in order", "statement": "Every request sent with send() is waiting, answered, failed or given up by its caller, exactly one of these; answers come in the order of the requests.", "quantifier": "every execution, single and cluster connections, including crashes", "why_tests_cant": "all interleavings", "anchors": ["src/cache/redis.rs", "src/master/redis/master.rs"]}
{"id": "C73", "title": "[refuted] Clones of a Redis client can be used side by side", "statement": "Expected: holders of clones of one client (for instance through Master::redis) and the actor can issue commands concurrently. The code violates this on a single-server connection: the second borrower panics while a reply is awaited, which kills the actor if it is the actor. It happens only while a command of another is in flight: not before one is sent, nor after it is answered or given up. On a cluster connection a holder panics only over its own reply.", "quantifier": "every command, every idle state", "why_tests_cant": "needs concurrent use across an await", "anchors": ["src/redis/mod.rs: RedisClient::exec (lines 58-77)"]}
{"id": "C74", "title": "[refuted] Every duration a site can be built with can be stored", "statement": "Expected: a token of a site accepted by the builders can be cached in Redis. The code violates this: Redis refuses lifetimes of zero seconds or whose deadline exceeds 2^63-1 ms, and add_token panics on the refusal, which kills the cache actor; within the range the token is stored and answered Ok.", "quantifier": "every server state, time and duration", "why_tests_cant": "all 64-bit durations", "anchors": ["src/redis/mcaptcha_redis.rs: add_token", "src/mcaptcha.rs: MCaptchaBuilder::build", "src/cache/redis.rs: Handler<CacheResult>"]}
{"id": "C75", "title": "Every Master request is answered exactly once", "statement": "At every point of every execution, a request to the Master has at most one answer, none before it is made; one without an answer can be completed by running its own task alone, whatever else is pending. Requests that need no counter are answered at once; a Master that died answers every later request with a closed mailbox.", "quantifier": "every execution, any number of requests in flight", "why_tests_cant": "all interleavings of handlers, tasks and crashes", "anchors": ["src/master/embedded/master.rs"]}
{"id": "C76", "title": "The cache's answers are those of its history", "statement": "Every message to the in-memory cache is answered at once; the complete sequence of answers is determined by the sequence of messages and delivered expiries: storing and deleting answer Ok, retrieving answers the last relevant event's challenge, validating answers true iff the last relevant event stored the token for that key.", "quantifier": "every execution", "why_tests_cant": "unbounded histories", "anchors": ["src/cache/hashcache.rs"]}
{"id": "C77", "title": "[refuted] A verification in progress does not stop other requests on the same thread", "statement": "Expected: while one verify_pow waits for the queue, other calls served by the same executor thread proceed. The code violates this: the wait is a loop without an await, so the thread is occupied until a verdict arrives; when the queue comes to rest with that submission still waiting (which happens without any fault as soon as there are more addresses than runners), a single-threaded server never takes up, continues or answers another call. One runner and three honest visitors in a row from addresses A, B, A suffice.", "quantifier": "every single-threaded execution that reaches such a state and every continuation of it; a concrete sequence for both build profiles", "why_tests_cant": "needs the interaction of the executor's threads, the queue's rotation and an endless wait", "anchors": ["src/system.rs: verify_pow (lines 162-175)", "src/queue.rs: dispatch_to, schedule"]}
{"id": "C78", "title": "[refuted] Worthless work delays only its sender", "statement": "Expected: work that fails both checks costs its sender an error and nobody else anything. The code violates this: its third verdict does not fit into the two-place channel, so the runner waits until the sender's call ends; if that call shares its thread with a call that is spinning for a runner, neither ever moves again: once every runner is held this way no submission of anybody is ever started, and no call on that thread returns or is taken up.", "quantifier": "every execution reaching such a state and every continuation, any assignment of calls to threads", "why_tests_cant": "needs blocked senders, a spinning receiver and thread sharing at once", "anchors": ["src/system.rs: verify_pow (lines 150-175)", "src/queue.rs: Runner::run", "src/pow.rs: QueuedWork::validate"]}
{"id": "C79", "title": "With enough runners and no worthless work, no thread is lost", "statement": "Whatever the assignment of calls to executor threads: as long as the queue has at least as many runners as addresses whose work was accepted, no check panics, and every submitted work passes at least one of the two checks, a verify_pow that occupies its thread can leave its waiting loop, needing only steps of one runner and its own. (Complements C77 and C78.)", "quantifier": "every permitted execution, every state with a spinning call", "why_tests_cant": "all interleavings, all thread assignments, unbounded queues", "anchors": ["src/system.rs: verify_pow (lines 162-175)", "src/queue.rs", "src/pow.rs: QueuedWork::validate"]}
{"id": "C80", "title": "A call's result is decided by the backends' answers, with any Master, cache and queue", "statement": "For any implementation of Master, cache and queue: get_pow returns a challenge only if the Master answered with that difficulty and the cache confirmed storing exactly that challenge for that site; verify_pow returns a token only if the cache gave a challenge of the work's own site, the queue accepted the work, the first verdict was true, and the cache confirmed storing exactly that token for that site with the challenge's duration; validate returns the cache's answer. Each error is traced to the one request that failed, and conversely each sequence of answers leads to exactly that result. Over the in-memory backends the answers are those actually given.", "quantifier": "every sequence of answers, including closed mailboxes and dropped channels; every execution over the in-memory backends", "why_tests_cant": "tests use the in-memory backends without failures", "anchors": ["src/system.rs: get_pow, verify_pow, validate_verification_tokens", "src/errors.rs: From impls"]}
{"id": "C81", "title": "[refuted] A failing Master is reported to the caller of get_pow", "statement": "Expected: a caller of get_pow can tell an unknown site from a Master that failed. The code violates this: an error answered by the Master is turned into Ok(None), the answer for an unknown site. A Redis that is down is reported in this way, and the Redis Master never says that a site is unknown, so with it every Ok(None) hides an error.", "quantifier": "every error, site and salt; every Redis reply", "why_tests_cant": "needs a failing backend", "anchors": ["src/system.rs: get_pow (lines 108-126)", "src/redis/mcaptcha_redis.rs: add_visitor", "src/master/redis/master.rs"]}
{"id": "C82", "title": "With Systems sharing a Redis, a pass on one was earned on one", "statement": "With any number of Systems on one Redis, with any failures of connections, actors and callers, and others taking tokens directly: if a validation on any System is told true for (site, token), then some verify_pow on some System had that token stored for that site (perhaps only after it was itself told of a broken connection), within the last duration seconds, for a challenge of that site that its work solves under that System's PoW configuration, and no validation or deletion of it has reached Redis since. Conversely a token whose storing was confirmed is answered true by every System, if at all, until its lifetime is over or somebody takes it. (Site names without colons; see C60.)", "quantifier": "every execution of any number of Systems and calls", "why_tests_cant": "needs several processes, failures and timing", "anchors": ["src/system.rs", "src/cache/redis.rs", "src/redis/mcaptcha_redis.rs: add_token, get_token"]}
{"id": "C83", "title": "With Systems sharing a Redis, a token passes at most once", "statement": "Over all Systems on one Redis, the validations told true for a token are no more than the verify_pow calls that had it stored, each of which drew it itself after its own work passed; with random strings that do not repeat, at most one validation of a token succeeds anywhere, whatever fails.", "quantifier": "every execution of any number of Systems and calls", "why_tests_cant": "needs several processes racing for one token", "anchors": ["src/system.rs", "src/cache/redis.rs", "src/redis/mcaptcha_redis.rs: add_token, get_token"]}
{"id": "C84", "title": "[refuted] With a Redis cache, work can be used once", "statement": "Expected: as with the in-memory cache, a solved challenge yields one token. The code does not ensure this: RedisCache never sends MCAPTCHA_CACHE.DELETE_CHALLENGE, not even for DeletePoW, and verify_pow relies on reading the challenge to remove it; with a module that keeps a challenge until it expires, the same work submitted twice yields two tokens that both pass.", "quantifier": "every message to the cache; a concrete execution over two Systems", "why_tests_cant": "depends on the behaviour of an external module", "anchors": ["src/cache/redis.rs: Handler<RetrivePoW>, Handler<DeletePoW>", "src/system.rs: verify_pow"]}
{"id": "C85", "title": "With a module that uses challenges up, each challenge gives at most one token over all Systems", "statement": "If the Redis module gives a challenge out at most as often as it was told to store it, then the verify_pow calls, over all Systems, that return a token for a given challenge of a given site are no more than the get_pow calls for that site that drew that string; with random strings that do not repeat, at most one.", "quantifier": "every execution of any number of Systems and calls with such a module", "why_tests_cant": "needs several processes racing for one challenge", "anchors": ["src/system.rs: get_pow, verify_pow", "src/cache/redis.rs"]}
{"id": "C86", "title": "Each site counts exactly its own visitors of the last duration seconds", "statement": "For a site built by the builders and not overwritten by restored data, at every moment of every execution of the Master: the current visitor count is at least the number of its own visitors counted less than duration seconds ago and at most the number of all of them, and equal to the former when no departure is overdue. Every visitor who is told a difficulty is one of the visitors of the registration its name stood for when the request was made, through renames, replacements and other sites' traffic.", "quantifier": "every execution, any number of sites, names and requests in flight", "why_tests_cant": "all interleavings of requests, tasks, timers and renames; unbounded histories", "anchors": ["src/master/embedded/master.rs", "src/master/embedded/counter.rs", "src/mcaptcha.rs"]}
{"id": "C87", "title": "Each site's visitors walk its own ladder, one level at a time", "statement": "For a freshly built site not overwritten by restored data, the difficulties told to its successive visitors are exactly those of a walk on its own ladder that starts at the bottom and moves up one level for a visitor whose number exceeds the current level's threshold and down one level otherwise; the number of a visitor lies between one plus the site's visitors of the last duration seconds and one plus all earlier ones, is at most one more than the number of the visitor before, and is the lower bound when departures are not delayed. The duration told is always the site's own.", "quantifier": "every execution, any number of sites; up to 2^32-1 visitors of the site", "why_tests_cant": "all interleavings; unbounded histories", "anchors": ["src/master/embedded/master.rs", "src/master/embedded/counter.rs", "src/mcaptcha.rs: add_visitor", "src/defense.rs: tighten_up, loosen_up"]}
{"id": "C88", "title": "Every challenge has a difficulty and lifetime the site's owner configured", "statement": "In every execution of the System over the in-memory backends: a challenge returned by get_pow has the difficulty of a level in the ladder registered for the site that its name stood for when the request was made, and was cached with that site's duration (sites built by the builders, without restored data).", "quantifier": "every execution, any number of concurrent calls", "why_tests_cant": "all interleavings of calls, renames and timers", "anchors": ["src/system.rs: get_pow", "src/master/embedded/master.rs", "src/master/embedded/counter.rs", "src/defense.rs"]}
{"id": "C89", "title": "A quiet site stays easy and a busy site gets hard", "statement": "If, departures not being delayed, no visitor of a freshly built site ever finds more visitors of the last duration seconds (including the visitor) than the first threshold, everybody is told the lowest difficulty. A visitor who finds more than some level's threshold is told at least that level's difficulty, at once and whatever level the site was at, however departures are delayed; of two such visitors in a row at least one is told at least the next level's difficulty. Once the latest visitors, one fewer than there are levels, each found no more than the first threshold (departures not being delayed), the last of them was told the lowest difficulty, however busy the site was before.", "quantifier": "every execution, any ladder and traffic", "why_tests_cant": "all interleavings; unbounded histories", "anchors": ["src/mcaptcha.rs: add_visitor", "src/defense.rs", "src/master/embedded/counter.rs", "src/master/embedded/master.rs"]}
{"id": "C90", "title": "On Redis, every request means what it says", "statement": "Assume the Redis module does what its commands say: it may refuse any command, and otherwise registers, renames, deletes and reports sites, and stores and hands out challenges, under the names given. Then, whoever sends requests and in whatever order, and whichever answers are lost: every AddSite, Rename, RemoveCaptcha, AddVisitor, CachePoW, RetrivePoW and client call is answered; a refusal or a lost answer is reported as that error; AddVisitor is told the duration and the difficulty of a level of the site that the requests carried out so far left under that name, as it was registered; RetrivePoW is told what was last cached for that site and string; existence and visitor counts are those of the named site. The module understands every request, and has what is asked for exactly when the caller asked for something there.", "quantifier": "every sequence of requests by any number of Masters, caches and clients, with refusals and lost answers", "why_tests_cant": "needs the external module; unbounded histories", "anchors": ["src/redis/mcaptcha_redis.rs", "src/master/redis/master.rs", "src/cache/redis.rs"]}
{"id": "C91", "title": "Names of sites mean the same on Redis as with the embedded Master", "statement": "After the same AddSite, Rename and RemoveCaptcha messages, a name is registered on Redis exactly if it is registered with the embedded Master, and stands for the same registration with the same configuration (garbage collection of the embedded Master aside).", "quantifier": "every sequence of messages", "why_tests_cant": "the two backends are never compared by tests; unbounded histories", "anchors": ["src/master/redis/master.rs", "src/master/embedded/master.rs: rename, rm_site, add_site", "src/redis/mcaptcha_redis.rs"]}
{"id": "C92", "title": "With Systems sharing a Redis, a pass proves work at a configured difficulty", "statement": "With any number of Systems whose Masters and caches are on one Redis with a module that does what its commands say: the challenge verify_pow is given is the last one a get_pow for that site issued under that string (or one that a get_pow was not told is stored, the command for which reached Redis later), with the difficulty of a level of, and the duration of, the site that had the name at that visit; and a token is accepted on any System only if some verify_pow found work that solves such a challenge of the token's site at that difficulty, at most the site's duration ago. Registrations, renames and removals by others in between change nothing about challenges already issued.", "quantifier": "every execution of any number of Systems, calls and administrators", "why_tests_cant": "needs several processes, the external module and timing", "anchors": ["src/system.rs", "src/master/redis/master.rs", "src/cache/redis.rs", "src/redis/mcaptcha_redis.rs"]}
{"id": "C93", "title": "[refuted] The text of an error tells what went wrong", "statement": "Expected: different errors are displayed differently. The code violates this for one pair: building a site with duration zero is refused with CaptchaDurationZero, whose text is the one about difficulty factors of zero. Any other two errors that do not carry a Redis library's text are displayed differently, including the value or command they name.", "quantifier": "every pair of errors, with any payload", "why_tests_cant": "tests compare variants, not texts; payloads are arbitrary", "anchors": ["src/errors.rs: CaptchaError (display attributes)", "src/mcaptcha.rs: build"]}
{"id": "C94", "title": "Message builders build exactly what was last set", "statement": "CachePoWBuilder, CacheResultBuilder, AddSiteBuilder and RenameBuilder, after any sequence of setter calls: build succeeds iff every field was set, with the values last given; otherwise it fails naming a field that was never set. The library's own conversion of a solved challenge into a token entry never panics, and keeps key, duration and token.", "quantifier": "every sequence of setter calls", "why_tests_cant": "all call sequences and values", "anchors": ["src/cache/mod.rs: CachePoW, CacheResult, From<CachedPoWConfig>", "src/master/mod.rs: AddSite, Rename"]}
{"id": "C95", "title": "Tokens are judged alike by the in-memory cache and by Redis", "statement": "Store and check tokens in the same way, at the same times, on the in-memory cache and on a Redis server: if no token is given out twice, earlier checks named the token's own site, site names have no colon, Redis can hold the lifetimes, and expiry messages have been delivered, then any further check (for any site) is answered alike by both, at every moment other than the one at which the token's lifetime ends.", "quantifier": "every history of stores and checks, with any other cache traffic in between", "why_tests_cant": "the two backends are never compared; unbounded timed histories", "anchors": ["src/cache/hashcache.rs", "src/cache/redis.rs", "src/redis/mcaptcha_redis.rs: add_token, get_token"]}
{"id": "C96", "title": "Challenges taken in bulk are hard", "statement": "Whoever calls and however the calls are scheduled: of the challenges issued for one registered site between any moment and one site duration later, at most as many are easier than a level of the site as that level's visitor threshold, so beyond the highest threshold every one has the hardest difficulty; and between the thresholds v and w of two neighbouring levels at most every second one is easier than the higher of them, so that at most v + (w - v + 1) / 2 are. A challenge that get_pow returns within that period is one of those issued in it. (The site was built by the builders, has not been overwritten by restored data and has had at most u32::MAX visitors.)", "quantifier": "every execution, every site configuration, every period", "why_tests_cant": "combines counting, expiry, ladder moves and scheduling over unbounded executions", "anchors": ["src/system.rs: get_pow", "src/master/embedded/master.rs: AddVisitor", "src/master/embedded/counter.rs", "src/mcaptcha.rs: add_visitor", "src/defense.rs"]}
{"id": "C97", "title": "Tokens and passes obtained in bulk are paid for at the hardest level", "statement": "Every token verify_pow returns was earned with a challenge that no other successful verification used, and with work that solves that challenge at its difficulty; every positive validation was given for a token no other validation used, earned in this way for that site. Hence, of the tokens - and of the positive validations - that go back to challenges issued for one registered site within one site duration, at most as many cost less than work at one of the site's levels as that level's visitor threshold, whatever strings are chosen or repeated.", "quantifier": "every execution, every site configuration, every choice of random strings", "why_tests_cant": "end-to-end counting over unbounded concurrent executions", "anchors": ["src/system.rs: get_pow, verify_pow, validate_verification_tokens", "src/cache/hashcache.rs", "src/master/embedded/counter.rs", "src/mcaptcha.rs"]}
{"id": "C98", "title": "[refuted] On Redis, a client that goes away harms nobody else", "statement": "Expected: a client that drops its call (a closed browser tab, a timeout) has no influence on other clients' calls. With the Redis cache this is violated: if a validate_verification_tokens call is dropped while Redis is being asked, the System never issues a challenge, accepts work or checks a token again, whatever Redis replied and whatever happens later: every later validate_verification_tokens and verify_pow returns MailboxError and no later get_pow returns a challenge.", "quantifier": "every state with an idle cache, every token, every reply, every continuation", "why_tests_cant": "needs a future dropped at a particular moment, and all continuations", "anchors": ["src/system.rs", "src/cache/redis.rs: handle (tx.send(..).unwrap())"]}
{"id": "C99", "title": "A System on Redis answers its calls from Redis's replies to their own requests", "statement": "With Master and cache on Redis and any number of concurrent calls: each request of a call is answered with the meaning of Redis's reply to the command sent for that very request, a call returns what its sequence of answers calls for, and no call gets stuck. No request goes unanswered unless the actor it was sent to died; the Master stays alive even if clients go away, the cache as long as none does, if replies to visits and challenge lookups are well formed, Redis does not refuse to store a token, and connections are not shared (or go to a cluster).", "quantifier": "every execution with any number of calls, replies and other users of the actors", "why_tests_cant": "needs a Redis server, concurrency and all interleavings", "anchors": ["src/system.rs", "src/cache/redis.rs", "src/master/redis/master.rs", "src/redis/mod.rs"]}
{"id": "C100", "title": "Requests to Redis that are under way for a while appear to happen at one moment", "statement": "With any number of Systems whose Masters and caches are actors on one Redis, with commands that wait in mailboxes and travel, replies that arrive late or are lost, connections that break with commands still to be executed, callers that go away and actors that die: whatever can be observed (the calls with their arguments and results, the random strings drawn, and the token commands Redis executes, with their times and order) could also be observed of Systems whose requests are each executed and answered at one single moment, or fail before being executed, after it, or with the execution following some time after the failure. Calls correspond one to one, on the same System.", "quantifier": "every execution of any number of Systems and calls, single server or cluster", "why_tests_cant": "all interleavings of mailboxes, network and server", "anchors": ["src/system.rs", "src/cache/redis.rs", "src/master/redis/master.rs", "src/redis/mod.rs", "src/redis/mcaptcha_redis.rs"]}
{"id": "C101", "title": "With delays, lost replies and dropped calls, a token still passes once, only if earned, and anywhere", "statement": "In the same deployments: if random strings do not repeat, at most one validation over all Systems is told true for a token. One that is told true was preceded by a verify_pow on some System, given work for that site that passes the checks, which drew the token; by Redis storing it after that; and by Redis removing it, at most its lifetime later, with no removal in between. A token that verify_pow returns has been stored by Redis before, with the challenge's duration as its lifetime. And once stored, the first validation on any System whose command removes it within its lifetime is, if told yes or no, told yes. (Site names without colons; see C60.)", "quantifier": "every execution of any number of Systems and calls, single server or cluster", "why_tests_cant": "needs several processes, message delays and failures at every moment", "anchors": ["src/system.rs: verify_pow, validate_verification_tokens", "src/cache/redis.rs", "src/redis/mcaptcha_redis.rs: add_token, get_token"]}
{"id": "C102", "title": "[refuted] Asking the Master to clean up is a one-off and harmless", "statement": "Expected: a CleanUp message removes unused sites once and has no other effect. The code violates this: every CleanUp ever asked for keeps a cleanup of its own alive, so that as long as the Master lives exactly one more than the CleanUps asked for sleep or are under way, and whenever none is under way one gc period is enough for all of them to start again. And two of them at once are fatal: if a site that has been used is idle, a CleanUp asked for when a pass begins is answered, but one pass stops the site's counter and the other, meeting it, kills the Master, after which no message is answered.", "quantifier": "every execution; any number of sites and CleanUps", "why_tests_cant": "unbounded executions and a race between two passes", "anchors": ["src/master/embedded/master.rs: Handler<CleanUp>", "src/master/embedded/master.rs: started"]}
{"id": "C103", "title": "[refuted] Work on which the PoW library panics harms only its sender", "statement": "Expected: if checking some visitor's work panics inside the PoW library, other visitors' calls are answered on their merits. The code violates this. Work of others that was handed to the same runner and had not started is answered InsuffiencientDifficulty, however good it is. And once the queue has caught up, if it has room and enough IPs have had work accepted, one more submission from one of these IPs, of any work for a cached challenge, ends the whole process. Nothing else ends it: a process that has ended, and any check that panicked, goes back to a verify_pow with work on which the library panics, for a challenge that was cached for the site it named.", "quantifier": "every execution of a System with any library, any number of clients, sites and runners", "why_tests_cant": "needs a library that panics on some input, and all later executions", "anchors": ["src/pow.rs: validate", "src/queue.rs: Runner, dispatch_to, InnerManager::drop", "src/system.rs: verify_pow"]}
{"id": "C104", "title": "[refuted] A request the Master did not answer was not carried out", "statement": "Expected: a visitor whose AddVisitor message fails has not been counted, and a site whose RemoveCaptcha message fails is still there. The code violates this: a Master that dies after the counter has handled the message, but before passing on its answer, drops the client's channel; the visitor stays counted, as the counter, which lives on, tells anyone who holds its address, and the removed site's counter is stopped. Apart from that, the time answers need on their way from the counters changes nothing: what happens to the sites and counters is the same as if answers came at once, each request gets at most one answer, and that is the one it would have got then, unless the Master died.", "quantifier": "every execution of the Master with answers delayed arbitrarily", "why_tests_cant": "needs the death of an actor between two steps of a future, and all interleavings of delayed answers", "anchors": ["src/master/embedded/master.rs: Handler<AddVisitor>, Handler<RemoveCaptcha>, Handler<CleanUp>"]}
{"id": "C105", "title": "A call on a System on Redis returns after a bounded amount of service", "statement": "With Master and cache on Redis and any number of other calls: a call's messages are not overtaken. If the actor it turns to has at most b messages to do whenever it sends one, then after at most 2 (1 + 2 (b + 1)) + 2 steps of its own and of the actor it waits for (taking a message, getting Redis's reply) a get_pow has returned; a verify_pow after two more, a validate_verification_tokens after (1 + 2 (b + 1)) + 1; however many messages and calls come after it, whichever callers go away and whatever dies. Such a step is always possible, whatever Redis, queue and runners say, unless the connection goes to a cluster and another holder of it is using it. So, from any state, a call that is attended to returns.", "quantifier": "every execution with any number of calls, every reply", "why_tests_cant": "unbounded executions and all interleavings; needs a Redis server", "anchors": ["src/system.rs", "src/cache/redis.rs", "src/master/redis/master.rs"]}
{"id": "C106", "title": "Answers lost with the Master make get_pow fail, and nothing else", "statement": "If the embedded Master dies while the answer to a counted visit is on its way, that get_pow returns RecvError instead of a challenge (the visitor stays counted). Everything else is as if that call had been cancelled by its caller: the same messages reach Master, cache and queue and all other calls return the same. In particular with such losses, too, a token is only returned for valid work sufficient for the challenge, issued for that site; no more calls get tokens for a challenge string than get_pow calls stored it, no more validations of a token succeed than verify_pow calls stored it, and they succeed only for the site the work was submitted for. While the Master is alive no answer is lost.", "quantifier": "every execution of a System with losses at any moment", "why_tests_cant": "needs the death of an actor between two steps of a future, and all interleavings", "anchors": ["src/system.rs: get_pow", "src/master/embedded/master.rs: Handler<AddVisitor>"]}
{"id": "C107", "title": "[refuted] Moving the sites to a new process changes nothing for visitors", "statement": "A dump of a Master's sites, written as JSON, read back and restored into a Master that was just started, gives that Master the same names with the same data, and no others; and the next visitor of each site is told what the old Master would have told them. Expected: visitors who came before the move are then forgotten when their time is over. The code violates this: unless saved data is written again, the new Master never forgets them, so that the count stays at least what it was when the dump was taken (exactly that plus the new visitors within the duration, when no departure is overdue), and every later visitor gets at least the difficulty of each level whose threshold is not above the saved count. The old Master's count is zero once nobody has come for the duration.", "quantifier": "every execution before the dump and after the restore; every ladder, any number of sites and visitors, every order in which the dump is written and restored", "why_tests_cant": "unbounded time after a restart; a composition of dump, serialization, restore and counting", "anchors": ["src/master/embedded/master.rs: Handler<GetInternalData>, Handler<SetInternalData>", "src/master/embedded/counter.rs: SetInternalData, BulkDecrement", "src/mcaptcha.rs: Serialize, Deserialize"]}
{"id": "C108", "title": "[refuted] A pass is recent", "statement": "Expected: a visitor whose token is accepted was issued their challenge at most two durations before (one to solve it, one to hand in the token). The code bounds only the two ends: if no expiry is overdue when the cache handles a message, a token told good was stored less than the challenge's duration before, by a verify_pow which had, before that, taken out a challenge of that site issued less than the same duration before. The time the work waits for its check is not bounded and no expiry applies to it: for every D there is an execution, with every expiry on time, in which a token is told good more than D after the only challenge ever issued.", "quantifier": "every execution with the in-memory cache, every delay", "why_tests_cant": "unbounded waiting times; all interleavings of clock, queue and cache", "anchors": ["src/system.rs: verify_pow, validate_verification_tokens", "src/cache/hashcache.rs", "src/queue.rs"]}
{"id": "C109", "title": "[refuted] A dropped queue is gone", "statement": "Expected: dropping the work queue waits for its threads, and nothing of it is left. Without panics this holds: the drop never panics, and when it returns every runner thread has returned, having finished all the jobs it was given. With or without panics the drop ends after a bounded number of steps of the threads. But if a job has panicked, or panics meanwhile, the drop panics and threads outlive the queue: every runner that is idle with nothing to do, and comes after one already dead in the order in which they are told to stop, keeps spinning on its closed channel for ever; and once the drop is over a runner starts at most one more of the jobs it was given.", "quantifier": "every execution up to the drop and after it, every order of the runners, any number of runners and jobs", "why_tests_cant": "needs panics at particular moments and the order of a hash map; non-termination cannot be observed by a test", "anchors": ["src/queue.rs: Drop for InnerManager, Drop for Manager, RunnerThread::run"]}
{"id": "C110", "title": "[refuted] Removing or renaming a site reaches what it has issued", "statement": "Expected: after a site was removed its outstanding challenges and tokens are worthless, and after it was renamed they belong to the new name. The code does neither: verify_pow and the token check never ask the Master. In any stretch of an execution in which no get_pow takes part, every call, answer, cache message and queue step is the same with and without the owners' messages to the Master; whatever could have happened can still happen after any of them. So work for a challenge of a removed site is accepted and its token is told good. And a client that follows a renaming, submitting its work under any other key than the challenge was issued for, is refused with a key error and has lost the challenge: nobody can pass with it any more unless it is issued again.", "quantifier": "every execution, every list of messages to the Master, every PoW library, any number of clients", "why_tests_cant": "non-interference over all interleavings, not a case", "anchors": ["src/system.rs: verify_pow, validate_verification_tokens", "src/master/embedded/master.rs: Handler<RemoveCaptcha>, Handler<Rename>", "src/cache/hashcache.rs"]}
{"id": "C111", "title": "[refuted] What a System keeps in memory is bounded by its recent traffic", "statement": "Expected: once calls are over and durations have passed, nothing of them is left. For the cache this holds: when no expiry is overdue it keeps exactly one pending expiry for each challenge and token stored whose duration has not passed since (used or not), the challenges and tokens it holds are among these, and once all durations have passed it is as it was at the start. The queue does not: as long as no check panics it holds one entry for each distinct address of which it has ever accepted a job, whether or not any job is left, and an entry, once there, stays for ever.", "quantifier": "every execution of a System with the in-memory cache, any number of calls and addresses", "why_tests_cant": "unbounded executions; what is kept shows up only as memory use over a long time", "anchors": ["src/cache/hashcache.rs", "src/queue.rs: InnerManager", "src/system.rs"]}
{"id": "C112", "title": "However a message is written in JSON, it is read as what it says", "statement": "Clients, other processes and the Redis module may write JSON as they like. The texts that are read at all are exactly the JSON texts of RFC 8259 (any white space, any escaping including surrogate pairs, any nesting), each for the one value it stands for; escapes for half a surrogate pair, which stand for no character, are tolerated only inside members that no field is read from; what the library writes is such a text for the value written. A message (work, site, level, dump of all sites, ...) is read from exactly the texts that give each of its fields once with a value of its type: unsigned integers in range and without sign, fraction, exponent or leading zero, strings, lists; in any order and with any other members, or as an array of the fields in order. A field that is missing or given twice makes the text unreadable; in a dump the last entry of a name counts.", "quantifier": "every text and every message of the 16 serialisable shapes", "why_tests_cant": "all texts of a grammar, both directions: no list of examples covers them", "anchors": ["src/pow.rs: Work, PoWConfig", "src/defense.rs: Level, Defense", "src/mcaptcha.rs: MCaptcha", "src/master/mod.rs", "src/cache/mod.rs", "src/redis/mcaptcha_redis.rs: serde_json::from_str"]}
{"id": "C113", "title": "With a runner for every caller, a call on an in-memory System is over after a bounded amount of service", "statement": "The steps that serve a call are its own, the one of the Master's future that answers its visit, those of the dispatcher while it waits to be told that its work is queued, and those of the runner that has its work while it waits for the verdict. get_pow needs at most 5 of them and a token check 2, whatever else happens. verify_pow needs at most 9 + 5b, where b is the number of messages in the dispatcher's inbox and of jobs at the runners when it hands in its work, provided that work has come from no more addresses than there are runners and that every work handed in passes at least one of its two checks (C56 and C78 show what happens otherwise). Later calls, timers and other threads cannot make it more: work is done in the order of its arrival. As long as the call is not over and no check has panicked there is such a step and it can be taken; so a call that is attended to returns.", "quantifier": "every execution, every schedule, every PoW library, any number of calls, runners and addresses", "why_tests_cant": "a liveness bound over all schedules; a test sees one", "anchors": ["src/system.rs", "src/queue.rs: Manager, InnerManager, Runner", "src/pow.rs: QueuedWork", "src/master/embedded/master.rs: Handler<AddVisitor>"]}
{"id": "C114", "title": "Who was not told a challenge or token can only guess it", "statement": "A challenge or a token is a random string told to one caller. Let everybody else do what they like, for as long as they like: any calls, any messages to the Master, any schedule, each step chosen in the light of everything seen so far (all calls and answers, which calls go on, the Master, the queue, the clock, even whether and how the one who was told the token fares with it; only the string itself and the messages to the cache are not seen). Then whichever string was drawn, the same is done and the same is seen, as long as that string is not named in submitted work, a token check or another draw. So of the 62^32 strings that may have been drawn (each as likely as any other, C58) no more can ever be named than different strings are tried: q tries succeed with probability at most q / 62^32. And naming it is the only way: the challenge or token a call is given is the one it drew itself in that call, accepted work is for a challenge that some call drew, and a token found good is one that some call drew.", "quantifier": "every adversary (any function from what was seen to the next step), every number of steps, every PoW library, every System with the in-memory cache", "why_tests_cant": "quantifies over all adversaries and all random strings; what is not leaked cannot be seen in a test", "anchors": ["src/system.rs: get_pow, verify_pow, validate_verification_tokens", "src/cache/hashcache.rs", "src/utils.rs: get_random"]}
{"id": "C115", "title": "With tokens in Redis, who was not told a token can only guess it", "statement": "Any number of Systems, in any processes, keep their tokens in one Redis. A token is a random string told to one caller. Let everybody else do what they like, for as long as they like: calls on any System, direct use of the client's get_token and delete_token, any answers of masters, queues and the Redis module, any failure of the connection, each step chosen in the light of everything seen so far, which is all that goes on, commands to Redis included, but for the secret string itself where it occurs. Then everything goes the same way whichever string without a colon was drawn (and drawn strings have none), until it is named: as the part after the last colon of a token that is checked or removed, or of another string that is drawn. The last colon counts because site and token are joined by one. So of all the strings that might have been drawn an adversary who makes q different guesses names at most q. And naming one is the only way: a call is given the challenge or token it drew itself, and a token that passes ends, after its last colon, in a string that a call with work passing both checks drew before.", "quantifier": "every adversary (any function from what was seen to the next step), every number of steps, any number of Systems and PoW configurations", "why_tests_cant": "quantifies over all adversaries and all random strings; what is not leaked cannot be seen in a test", "anchors": ["src/system.rs: verify_pow, validate_verification_tokens", "src/cache/redis.rs", "src/redis/mcaptcha_redis.rs: add_token, get_token, delete_token", "src/utils.rs: get_random"]}
{"id": "C116", "title": "On Redis, honest work is accepted, whatever happened to its site meanwhile", "statement": "With any number of Systems on one Redis, whose module answers honestly, and no random string drawn twice: if get_pow on one System returned a challenge, and work submitted to any System for that site and challenge passes both checks there at the difficulty that was told to the visitor, then verify_pow returns a token and that difficulty, stored for that site with the duration of the challenge as issued, even if the site has since been renamed, removed or replaced by a harder one; or it fails for one of four reasons that have nothing to do with the work: Redis failed to hand the challenge out, the queue did not take the work, the work was lost with its runner, or Redis failed to store the token. Work is never refused as too easy or for the wrong site. And the token returned is then good for that site on every System, for its duration, until somebody checks or removes it (any check that is answered is answered true). (Site names without colons; see C60.)", "quantifier": "every execution of any number of Systems and calls, every PoW configuration, every honest module", "why_tests_cant": "needs several processes sharing a Redis, interleaved with changes to the site", "anchors": ["src/system.rs: get_pow, verify_pow, validate_verification_tokens", "src/cache/redis.rs", "src/redis/mcaptcha_redis.rs"]}
{"id": "C117", "title": "In memory, an honest visitor gets in, and on a quiet site at the lowest price", "statement": "If get_pow returned a challenge for a site, that challenge was not drawn a second time, nobody else submitted anything for it, and work for it that names the site and passes both checks at the difficulty told reaches the cache before the challenge's duration has passed since it was stored, then verify_pow returns a token and that difficulty, or says that the queue is full - never that the challenge is unknown, the site is wrong or the work is too easy, whatever happened in between to the site, to other sites, to other visitors, and however long the work waited in the queue. (The token is then good, C54.) And the difficulty told is that of the lowest level of the site's ladder, as long as the site was freshly configured, nobody restored its counter, its timers are not late and no visit together with the earlier ones of its window exceeded the lowest threshold - however busy other sites are.", "quantifier": "every execution without a panicking check, every schedule, every PoW library, any number of sites, clients and levels", "why_tests_cant": "interleavings of visits, expiries and other traffic; a test shows one quiet run", "anchors": ["src/system.rs: get_pow, verify_pow", "src/cache/hashcache.rs", "src/queue.rs", "src/mcaptcha.rs", "src/master/embedded"]}
{"id": "C118", "title": "Systems that share one in-memory cache act as one", "statement": "Any number of Systems, each with its own salt, Master and queue, can be built on one in-memory cache. Whatever they and their callers do, at the same time and in any order, and callers may give up a call at any point (a request it has already sent is still carried out): a token passes on any System only if a verify_pow call on some System stored it for that very site, for work that passes that System's two checks at the parameters of a challenge of that site, and nobody has checked, replaced or deleted it since; if expiries are not late, its duration is not over. What verify_pow is given to check work against is what a get_pow call on some System stored for that site, exactly as its Master told it. Over all Systems a token passes at most as often as it was stored, each time by a different verify_pow call with passing work, and a challenge is handed to at most as many verify_pow calls as get_pow calls stored it. A stored token is good on every System in its lifetime, until it is touched; and work that solves a challenge as it was issued, handed in on any System in time and by nobody else before, is accepted at the difficulty issued, unless the cache is gone, the queue does not take it or its runner is lost. (Others who have the cache's address may check and delete what they know; the first claims assume that they do not put in challenges or tokens of their own.)", "quantifier": "every execution of any number of Systems and calls, every schedule and give-up, every PoW configuration, any Masters and queues", "why_tests_cant": "needs several Systems, interleaved calls and abandoned futures", "anchors": ["src/system.rs: SystemBuilder, get_pow, verify_pow, validate_verification_tokens", "src/cache/hashcache.rs"]}
{"id": "C119", "title": "With the caches on Redis, work is judged by what the issuing Master said, wherever the Masters are", "statement": "The cache and the Master of a System are chosen separately. Let any number of Systems keep challenges and tokens in one Redis, whose module answers honestly, while each has a Master of its own kind: in memory, on the same Redis or on another. Then a token passes on any System only if some verify_pow accepted work that solves a challenge of that site at the difficulty that the Master of the System on which get_pow issued it had told that get_pow, and only within the lifetime it had told. If the Masters are in memory, these are the difficulty of a level and the duration that the site was registered with at the issuing System, whatever sites of that name the other Systems' Masters have, be they harder, easier or none. And work that solves a challenge as it was returned by get_pow is accepted on every System with that difficulty, except for the four setbacks of C116. C92 and C116 for Masters on the same Redis are special cases of the same hypothesis.", "quantifier": "every execution of any number of Systems and calls, every PoW configuration, any Masters, every honest module", "why_tests_cant": "needs several processes with different Masters sharing a Redis, interleaved", "anchors": ["src/system.rs: SystemBuilder, get_pow, verify_pow, validate_verification_tokens", "src/cache/redis.rs", "src/redis/mcaptcha_redis.rs", "src/master/embedded"]}
{"id": "C120", "title": "With a shared in-memory cache, a pass proves work at a configured difficulty of the issuing System", "statement": "Let any number of Systems be built on one in-memory cache, each with a Master of its own, in memory or on any Redis. A token passes on any of them only if a verify_pow on some System accepted, by that System's own PoW configuration, work for a challenge that a get_pow for that site drew, at the difficulty of a level of the site as the issuing System's Master had it: the ladder the site was registered with, if the Master is in memory (and its data was not restored); the ladder of the site that had the name at that Redis when the challenge was issued, if the Master is there and the module answers honestly. The token was stored with the site's duration, and passes only within it if expiries are not late. Sites of the same name that other Systems' Masters have, be they harder or easier, do not matter. (Assuming, as in C118, that nobody else puts challenges or tokens into the cache.)", "quantifier": "every execution of any number of Systems and calls, every schedule and give-up, every PoW configuration, every Master history or honest module log for each System", "why_tests_cant": "needs several Systems with different Masters and interleaved calls; the claim ties a pass to a configuration made earlier elsewhere", "anchors": ["src/system.rs: SystemBuilder, get_pow, verify_pow, validate_verification_tokens", "src/cache/hashcache.rs", "src/master/embedded", "src/master/redis/master.rs"]}
