# Formal model of mCaptcha/libmcaptcha in Rocq (Coq 8.16.1)

## Layout

    rocq/theories/Model/*.v       executable Gallina model, one file per source file; every definition cites file:lines
    rocq/theories/Spec/*.v        small, separate specifications (histories, windows, ladders); no model helpers
    rocq/theories/Proofs/*.v      lemmas and invariants; Proofs/XTheorems.v has the proofs of Properties/XProperties.v
    rocq/theories/Properties/*.v  the property theorems, each `exact` a lemma; Print Assumptions; witnesses and their example runs
    properties.jsonl              the English properties (source: tools/gen_properties.py)
    MANIFEST.json                 property -> theorems
    seeded/LOG.jsonl              wrong-program experiments
    seeded/AUTO.jsonl             the same, with small edits chosen at random

## Modelling decisions

* **Integers.** `u32`, `u64`, `usize` are `N`. Every `+`/`-` that can leave its range is modelled by an
  explicit checked operation parameterised by the build profile (`Debug`: overflow panics, `Release`: wraps);
  theorems quantify over both profiles.
* **Panics** are the explicit value `Panic` of `outcome`; `Result` is `result` (`Ok`/`Err`) with the crate's
  `CaptchaError` as `captcha_error`.
* **Strings** are Coq `string`s (byte strings). **Maps** (`HashMap`, `BTreeMap`) are std++ `gmap`s.
* **`&mut self`** methods return the new value (also on the error path).
* **Time** is a number of nanoseconds (`N`). `sleep(Duration::new(d,0))` registers a timer with due time
  `now + d*10^9`; the environment may deliver it at any moment at or after its due time (late delivery allowed),
  never before. "No timer overdue" describes the ideal, prompt runtime; it is a hypothesis only where stated.
* **Actors.** Handling one message is atomic (actix guarantees this). A message that was sent is handled at a
  moment chosen by the environment; mailbox order between different senders is therefore over-approximated.
  A panic inside a handler or spawned task kills that actor: later sends fail with `MailboxError`.
* **Threads and channels** (work queue) are modelled as FIFO lists with one step per channel operation; the
  environment picks the interleaving.
* **Runs** are lists of events; `run` is a fold of an executable `step : state -> event -> option (state * output)`
  (`None` = that event is not enabled). Theorems quantify over every event list.
* **Random strings** are chosen by the environment; where distinctness matters it is an explicit hypothesis.
* **PoW library** (`mcaptcha_pow_sha256`) is not in the repository: its two predicates are universally
  quantified parameters. The Redis module (`mcaptcha_cache`) is likewise external: its replies are arbitrary (C90, C92, C116, C119, C120: a hypothesis about them, below).

## Per-property plan

| id | model | proof |
|----|-------|-------|
| C01-C03 | `Model/Defense.v` builders | induction over call histories, refinement to "accepted levels" |
| C04-C06 | `Model/Defense.v` ladder | invariant `wf`, refinement to a clamped cursor; witness for C06 |
| C07 | documented formula | arithmetic, no bound |
| C08-C15 | `Model/MCaptcha.v` | induction over histories; band invariant for C11; witnesses for C12, C14 |
| C16-C21 | `Model/Counter.v` timed LTS | invariants relating count, timers and the event history |
| C22-C31 | `Model/Master.v` LTS with spawned tasks | refinement to a map; loop invariants for undisturbed passes; witness schedules |
| C32-C37 | `Model/HashCache.v` timed LTS | refinement to "last event concerning the string" on histories |
| C38-C46 | `Model/Queue.v` LTS with FIFO channels | invariants over all interleavings; ranking for fairness; witness runs |
| C47-C48 | `Model/Pow.v` | case analysis over arbitrary oracle verdicts; channel steps |
| C49-C56 | `Model/System.v` composition LTS (clients x cache x queue x runners) | invariants over all interleavings |
| C57-C58 | `Model/System.v`, `Model/Utils.v` | induction |
| C59-C63 | `Model/Redis.v`, `Model/RedisTokens.v` | refinement of a SET/EX/DEL server; string injectivity; witnesses |
| C64, C65 | `Model/Queue.v`, `Model/Master.v` | failure propagation; an invariant of the queue that survives panics of jobs (`Proofs/QueuePanics.v`); witness runs and converse |
| C66-C68 | `Model/Json.v`, `Model/Serde.v` | printer/parser inversion for all strings and numbers; per-type codecs |
| C69-C74 | `Model/RedisActor.v` | conservation of requests, survival invariant over all executions, witness schedules |
| C75 | `Model/Master.v` | invariant linking pending tasks, request numbers and answers; completion of each task kind |
| C76 | `Model/HashCache.v` | refinement of the answer sequence to a function of the history |
| C77-C79 | `Model/System.v` restricted by an assignment of calls to executor threads | invariants of stuck states over all permitted continuations; witness runs; progress by induction on a runner's channel |
| C80-C81 | `Model/SystemProgram.v` (the three calls as programs over arbitrary backends) | case analysis of runs, both directions; the calls of `Model/System.v` shown to follow the programs |
| C82-C85 | `Model/SystemShared.v` (any number of Systems on one Redis) | invariant tying the server to the token history and each call to its program; counting; C59's characterisation of `get_token` |
| C86-C89 | Master, Counter and System together, seen from one site (`Spec/SiteSpec.v`) | projection of a Master run to the run of one counter (`Proofs/SiteProofs.v`); exact visitor numbers and ladder walk of a counter (`Proofs/SiteCounter.v`); as numbers rise by at most one, a number never exceeds the threshold of the next level |
| C90-C92 | Redis client, Redis Master, RedisCache and Systems over a module that does what its commands say (`Spec/ModuleSpec.v`, `Spec/MergedSpec.v`) | refinement: the module's history of commands against the callers' history of requests (`Proofs/ModuleProofs.v`); induction over merged histories (`Proofs/MergedProofs.v`) |
| C93-C94 | `Model/Errors.v`, `Model/Builders.v` | case analysis; a general lemma on setter histories |
| C95 | `Model/HashCache.v` against `Model/RedisTokens.v` | both are characterised by histories (C33, C34, C59); the histories correspond |
| C96-C97 | `Model/System.v`, `Model/Master.v`, `Model/HashCache.v` | client -> visit -> position in the site's ladder walk (C87) is injective; so are pass -> token and token -> challenge; positions of easy visits lie in a range of bounded length, no two adjacent in its upper part (C89) |
| C98-C99 | `Model/RedisSystem.v` (calls of `Model/SystemProgram.v` on the actors of `Model/RedisActor.v`) | invariant tying each actor to its own history, each waiting call to a pending request and each call to its program; survival of the actors from C69 and C70 |
| C100-C101 | `Model/Deployment.v` (any number of `Model/RedisSystem.v` on one Redis; commands and replies under way) | forward simulation into `Model/SystemShared.v`: each call's request happens there when Redis executes its command; observations are equal up to the naming of calls; C82 and C83 carried over |
| C102 | `Model/Master.v` | invariant counting the cleanups that sleep or are under way (`Proofs/MasterLoops.v`); composition of C24's undisturbed pass with a pass over a stopped counter |
| C103 | `Model/System.v`, `Model/Queue.v` | C64's invariant applied to the System's queue (`Proofs/SystemPanics.v`); the library's checks may panic on any input (`Spec/PanicSpec.v`) |
| C104 | `Model/MasterDelay.v` | simulation: with delayed answers the same run of `Model/Master.v`, and for each request the same answer, one under way, or one lost with the Master; witness run |
| C105 | `Model/RedisSystem.v` | potential: the program's remaining requests and the messages ahead of the pending one, decreased by every step that serves the call and never increased (`Proofs/RedisSystemLive.v`) |
| C106 | `Model/SystemLoss.v` | simulation: a lost answer is a cancelled call of `Model/System.v`; corollaries of C50 to C52 |
| C107 | `Model/Master.v`, `Model/Serde.v` | composition of C29, C66 and C30 (`Spec/RestartSpec.v`), invariants over the log of a restore and over a site's data: a level above the current one has not been exceeded (`Proofs/RestartProofs.v`) |
| C108 | `Model/System.v`, `Model/HashCache.v` | composition of C34, C50 and C52 with the order of one client's messages; a run with a symbolic delay (`Spec/FreshSpec.v`) |
| C109 | `Model/QueueEnd.v` (LTS of the end of the queue) | an invariant and a measure over all interleavings, started from C64's and C39's invariants of `Model/Queue.v` |
| C110 | `Model/System.v` | two runs that agree on everything but the Master (`Proofs/OwnerProofs.v`: a simulation); corollaries with C53 and C54 |
| C111 | `Model/HashCache.v`, `Model/Queue.v`, `Model/System.v` | invariant: every deadline of the history (`Spec/MemorySpec.v`) is a pending expiry or one delivered (`Proofs/MemoryProofs.v`); C38's invariant for the queue |
| C112 | `Model/Json.v`, `Model/Serde.v` | grammar of RFC 8259 and shape of each message as relations (`Spec/JsonSpec.v`); soundness of the reader by induction on its fuel, completeness by mutual induction on the grammar (`Proofs/GrammarProofs.v`), readers of structs by number of fields (`Proofs/MessageProofs.v`) |
| C113 | `Model/System.v`, `Model/Queue.v`, `Model/Master.v` | steps that serve a call and what lies before it (`Spec/TurnSpec.v`); a measure that no step raises and every serving step lowers: place in the inbox plus the remaining runner steps of all jobs with a smaller number (jobs are handed out in order when runners suffice), decreasing by induction on the run; an invariant for the Master's pending futures gives that a serving step exists (`Proofs/TurnProofs.v`) |
| C114 | `Model/System.v`, `Model/HashCache.v`, `Model/Utils.v` | a game between a secret string and an adversary who sees all but that string and the cache's messages (`Spec/GuessSpec.v`); every step commutes with exchanging two strings among challenges and tokens (equivariance), a string never named is nowhere, so the games for two unnamed secrets are images of each other; the bound by counting (`Proofs/GuessProofs.v`). Owner moves: a token may be checked by its owner; work for a secret challenge is a guess (the PoW library sees the string) |
| C115 | `Model/SystemShared.v`, `Model/Redis.v`, `Model/SystemProgram.v` | the same game over Systems sharing a Redis, the adversary seeing all but the secret string (`Spec/RedisGuessSpec.v`); two executions stay related by a relation on strings, programs (their continuations), pending stores and the server's keys; a key is split at its last colon (`Proofs/RedisGuessProofs.v`). Tokens only: challenges are kept by the Redis module, whose answers are arbitrary |
| C116 | `Model/SystemShared.v` | the contracts of both calls; C92 finds the challenge that the visitor was issued (draws distinct); a challenge cache on Redis never answers "no such challenge" but an error; the token by C82, other stores under its key excluded by counting |
| C117 | `Model/System.v` | the request that takes the challenge is located in the trace; C34 for the cache up to there (one issuer, one asker, no deletion message), then C54; the price by C96 (the visit behind a returned challenge) and C89 |
| C118 | `Model/SystemPool.v` (any number of Systems on one in-memory cache; others may use the cache; calls may be dropped with a message in the mailbox) | invariant tying the cache to what it has seen (a `cache_run`), each call to its program, and each message adrift to the call that sent it; then C32-C34 of the cache at the place of each request; counting |
| C119 | `Model/SystemShared.v`, `Model/Master.v` | the visits filtered out of the trace (`cache_side`); the module's log matched to the rest, so C92's argument needs no Master; for Masters in memory what was told is tied to a run of the Master (`in_memory`) and C86 and the ladder of C87 give the level |
| C120 | `Model/SystemPool.v`, `Model/Master.v`, `Model/RedisActor.v` | C118 takes a pass back to the visit behind its challenge; what was told is tied to a run of the Master (`pool_in_memory`, then C86, C87) or to the log of its module (`heard`, then C90) |

Properties marked `[refuted]` in properties.jsonl are expectations that the code violates; their theorem
(`..._refuted`) proves the violation by a reachable witness and, where possible, the general mechanism.

## Trusted base

* The Coq 8.16.1 kernel, including `vm_compute` (used for closed witnesses). No kernel check is switched off.
* Libraries: Coq's standard library and std++ (definitions and proved lemmas). No other library is imported.
* `Print Assumptions` follows every property theorem and prints `Closed under the global context` for each of them:
  no axiom is used, neither of ours nor of the standard library. (A whole-environment check such as `coqchk -o` also lists
  `Coq.ssr.ssrunder.Under_rel.*`: opaque constants of Coq's own ssreflect files, loaded because std++ loads them. No theorem here
  depends on them.)
* The correspondence between the Rust code and the model: a reading of the source, recorded in the comments
  (`file.rs:lines`) of every definition. Nothing was executed.
  As a check of that reading, `Properties/RepoTests.v` replays the unit tests of the source files and `examples/simple.rs` on the
  model, assertion by assertion (tests, not proofs; the tests that need the Redis module are left out).
* Assumptions about code that is not in the repository, made where the model needs a behaviour:
  * actix: a handler runs to completion before the next message; a future given to `ctx.wait` blocks the mailbox;
    a `sleep` never ends early; a panic in a handler or in a future of the actor ends that actor and closes its mailbox
    (pending and later `send`s fail); an envelope whose sender has dropped its request is skipped.
  * crossbeam-channel: unbounded FIFO; `send` fails iff the receiver is gone.
  * a panic while unwinding aborts the process (Rust).
  * serde derive / serde_json: objects by field name in any order, unknown members ignored, duplicates and missing
    members rejected, arrays accepted positionally, integers only, range-checked.
  * redis crate: integer conversions by `as`, text parsed, `()` from anything; Redis: `SET k v EX n`, `DEL k`.
  * derive_builder: a setter overwrites, `build` names the first missing field in declaration order.
  * rand: `Alphanumeric` draws by rejection sampling from a word source.

## Modelled

| source | model | remarks |
|--------|-------|---------|
| `src/defense.rs` | `Model/Defense.v` | all of Level, LevelBuilder, Defense, DefenseBuilder |
| `src/mcaptcha.rs` | `Model/MCaptcha.v` | all |
| `src/master/embedded/counter.rs` | `Model/Counter.v` | all handlers, timers, Stop |
| `src/master/embedded/master.rs` | `Model/Master.v`, `Model/MasterDelay.v` | all handlers, the spawned tasks await by await, the cleanup loop, crashes; the way back of the counters' answers |
| `src/master/mod.rs` | `Model/Master.v`, `Model/Serde.v` | messages, their JSON form, their builders (`Model/Builders.v`) |
| `src/cache/mod.rs`, `src/cache/hashcache.rs` | `Model/HashCache.v` | all handlers and expiry timers; `Save` is a marker trait |
| `src/cache/redis.rs`, `src/master/redis/master.rs` | `Model/RedisActor.v` | all handlers, callers going away, crashes |
| `src/redis/mod.rs` | `Model/RedisActor.v`, `Model/Redis.v` | `exec` and sharing, `ping` |
| `src/redis/mcaptcha_redis.rs` | `Model/Redis.v`, `Model/RedisTokens.v` | every operation: command sent, reply decoded; the module check |
| `src/queue.rs` | `Model/Queue.v`, `Model/QueueEnd.v` | Manager, InnerManager, Runner, channel by channel; panics and process abort; the drop, message by message |
| `src/pow.rs` | `Model/Pow.v`, `Model/Serde.v` | `PoWConfig::new`, `Work`, the `Prove` job |
| `src/system.rs` | `Model/System.v` | SystemBuilder, `get_pow`, `verify_pow`, `validate_verification_tokens` |
| `src/utils.rs` | `Model/Utils.v` | `get_random` over an arbitrary word source |
| `src/errors.rs` | `captcha_error` in `Model/Base.v`, `Model/Errors.v` | the variants and their `Display` texts |

## Not modelled, simplified

* **Numbers.** `sleep` with a duration near `u64::MAX` seconds is modelled as a timer that is due at that (unreachable) time;
  tokio clamps such deadlines. Clock arithmetic itself does not overflow.
* **Mailboxes.** Capacity (16 by default, then senders wait) is not modelled: a sent message may be handled at any later moment.
  Order between two messages of one sender is over-approximated (any order), so the positive theorems hold a fortiori;
  witnesses of `[refuted]` theorems use schedules in which messages are handled in the order they were sent.
  An actor is not stopped by dropping all its addresses.
* **Master.** `Rename`, `AddSite`, `RemoveCaptcha`, `GetInternalData`, `SetInternalData`, `CleanUp`, `AddVisitor` spawn tasks; each
  await of such a task is one step: a counter handles the message and the task goes on with its answer. (So if the master dies, no
  visit is counted whose answer is lost on the way back; in the program that can happen, and `Model/MasterDelay.v` shows that it
  is the only difference: C104; for a System see `Model/SystemLoss.v`, C106.) The counters a task talks to are the
  model's counters; their time is the master's time.
* **System.** The in-memory cache and the embedded Master are composed; the cache receives only messages of the System and its own
  expiries. Dropping a `verify_pow` or `get_pow` future drops the messages it has not sent. `verify_pow`'s busy wait is
  one enabled step per poll; that it occupies an executor thread meanwhile is expressed by `permitted` in `Spec/ExecutorSpec.v`
  (used by C77 to C79), which restricts executions instead of changing the model. `Model/SystemProgram.v` gives the three calls over arbitrary
  backends; `Model/SystemShared.v` composes them with Redis for tokens, the RedisCache being reduced to what it passes on
  (its mailbox, borrowing and death are in `Model/RedisActor.v` and appear here as requests that fail at any time, before or after
  their command took effect); masters, queues and the module are arbitrary there, a first verdict is the first value `validate` sends.
  `Model/SystemPool.v` composes them with one in-memory cache used by several Systems and by others; there a dropped call's message that
  is already in the cache's mailbox is still handled, at any later moment.
  `Model/RedisSystem.v` composes the calls of one System with the two Redis actors (mailbox, `ctx.wait`, borrowing, death); what Redis
  replies, the queue and its verdicts are arbitrary there. `Model/Deployment.v` puts any number of these on one server: a command for a
  token is sent, executed and answered at three moments. A cache actor is used by its System only there; the error that arrives instead of a
  reply has a fixed text; a command whose connection broke before the server executed it may be executed once, at any later moment; Redis's clock and store are those of `Model/Redis.v`.
* **Queue.** `Model/Queue.v` sends all Stop messages in one step when no runner is dead, and otherwise only records that the dispatcher
  panics; a runner that dies after Stop was sent leaves its `drop` unfinished. `Model/QueueEnd.v` (C109) follows the two loops of
  `InnerManager::drop` runner by runner, in any order of the HashMap, and the threads that outlive a panicking `drop`. Simplified there: the
  channels to all runners are closed at the same moment.
* **PoW library** (`mcaptcha_pow_sha256`): its verdicts (`is_valid_proof`, `is_sufficient_difficulty`) are arbitrary functions, which may
  also panic; `Config` and salt are opaque.
* **Redis module** `mcaptcha_cache`: external; its replies are arbitrary. Only C90, C92, C116, C119 and C120 assume, as a hypothesis
  (`honest_module`), that a value it replies with is the one its commands' names call for; it may refuse anything, and the expiry of
  challenges and the module's own visitor counting are not specified beyond that. RESP3 maps, doubles and pushes are not among the reply values.
  Clusters: a synchronous call blocks the thread, modelled as "no other event in between"; redirections are not modelled.
* **JSON.** `f64` values are parsed as tokens only (no type here has floats); the recursion limit of serde_json (128) is not modelled:
  decoders of these types never go that deep themselves, and how deep an ignored member may be is left to the library (it does
  not recurse there). A string with a `\u` escape for half a surrogate pair, or an object with such a key, is one value (`JOdd`) that no
  decoder takes but that may be ignored, as in serde_json.
  Only `#[cfg(feature = "full")]` / default features; `minimal` drops parts and changes nothing else.
* **Debug output, logging, doc examples** are not modelled.

## Reading seeded/LOG.jsonl

Each line is an edit that was applied to a scratch copy of the model and rebuilt. Every lemma whose
proof broke was admitted (examples and statements that no longer typecheck were deleted) and the build
continued.

* `first_to_fail`: the lemmas, theorems and examples whose own proof broke.
* `failed`: the property theorems that broke or rest on an admitted lemma. If the run was incomplete
  (see `note`), the same names as `first_to_fail`.
* `survived`: the properties the edit was expected to break of which no theorem failed (`null`: not determined).
* `tightened`: theorems added or strengthened because of that edit.

A broken proof does not show that the statement became false; it only shows that the old proof does not
carry over. Most runs build only the property files named for the edit and use the sources as they were
when it was tried, so theorems added later, or in other files, are not listed.

Some statements were also strengthened after reading them, without building an edited model first:
C18 (restored data takes over), C31, C38 (order of answers), C40, C43 (attempts), C75, C76. The entries
V18, V31, V38, V40, V75, V76 and Q5 are edits of that kind, run afterwards.

`seeded/AUTO.jsonl` lists small edits (a constant, an operator, a text, a dropped argument) that a script chose at
random places of the model and built until the first proof broke, which is `first_to_fail`; no claim was chosen
beforehand. `survived` means that everything still built; the note says why that is right or what was done.
