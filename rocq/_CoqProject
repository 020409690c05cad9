-Q theories Verif
theories/Model/Base.v
theories/Model/Defense.v
theories/Model/MCaptcha.v
theories/Spec/DefenseSpec.v
theories/Proofs/DefenseProofs.v
theories/Spec/MCaptchaSpec.v
theories/Proofs/MCaptchaProofs.v
theories/Proofs/DefenseTheorems.v
theories/Properties/DefenseProperties.v
theories/Proofs/MCaptchaTheorems.v
theories/Properties/MCaptchaProperties.v
theories/Model/Counter.v
theories/Spec/CounterSpec.v
theories/Proofs/CounterProofs.v
theories/Proofs/CounterTheorems.v
theories/Properties/CounterProperties.v
theories/Model/HashCache.v
theories/Spec/CacheSpec.v
theories/Proofs/CacheProofs.v
theories/Proofs/CacheTheorems.v
theories/Properties/CacheProperties.v
theories/Model/Queue.v
theories/Spec/QueueSpec.v
theories/Proofs/QueueProofs.v
theories/Proofs/QueuePanics.v
theories/Proofs/QueueTheorems.v
theories/Properties/QueueProperties.v
theories/Proofs/QueuePanicTheorems.v
theories/Properties/QueuePanicProperties.v
theories/Model/QueueEnd.v
theories/Spec/QueueEndSpec.v
theories/Proofs/QueueEndProofs.v
theories/Proofs/QueueEndTheorems.v
theories/Properties/QueueEndProperties.v
theories/Model/Master.v
theories/Model/MasterDelay.v
theories/Model/SystemLoss.v
theories/Model/Pow.v
theories/Model/System.v
theories/Spec/MasterSpec.v
theories/Spec/DelaySpec.v
theories/Proofs/MasterProofs.v
theories/Proofs/MasterTasks.v
theories/Proofs/MasterLoops.v
theories/Proofs/MasterAnswers.v
theories/Proofs/MasterTheorems.v
theories/Properties/MasterProperties.v
theories/Proofs/CleanupTheorems.v
theories/Properties/CleanupProperties.v
theories/Proofs/DelayTheorems.v
theories/Properties/DelayProperties.v
theories/Proofs/LossTheorems.v
theories/Properties/LossProperties.v
theories/Spec/SystemSpec.v
theories/Spec/LossSpec.v
theories/Proofs/SystemProofs.v
theories/Proofs/SystemHistory.v
theories/Proofs/SystemVisits.v
theories/Proofs/SystemTheorems.v
theories/Properties/SystemProperties.v
theories/Proofs/SystemLiveness.v
theories/Proofs/QueueIdle.v
theories/Spec/ExecutorSpec.v
theories/Proofs/SystemProgress.v
theories/Proofs/SystemLiveTheorems.v
theories/Properties/SystemLiveProperties.v
theories/Proofs/ExecutorProofs.v
theories/Proofs/ExecutorTheorems.v
theories/Properties/ExecutorProperties.v
theories/Model/Json.v
theories/Proofs/JsonProofs.v
theories/Model/Serde.v
theories/Spec/SerdeSpec.v
theories/Proofs/SerdeProofs.v
theories/Proofs/SerdeTheorems.v
theories/Properties/SerdeProperties.v
theories/Spec/JsonSpec.v
theories/Proofs/GrammarProofs.v
theories/Proofs/MessageProofs.v
theories/Proofs/JsonTheorems.v
theories/Properties/JsonProperties.v
theories/Model/Utils.v
theories/Spec/UtilsSpec.v
theories/Proofs/UtilsProofs.v
theories/Proofs/UtilsTheorems.v
theories/Properties/UtilsProperties.v
theories/Model/Redis.v
theories/Model/RedisActor.v
theories/Model/RedisTokens.v
theories/Spec/RedisSpec.v
theories/Spec/ReplySpec.v
theories/Proofs/RedisProofs.v
theories/Proofs/ReplyProofs.v
theories/Proofs/RedisTheorems.v
theories/Properties/RedisProperties.v
theories/Spec/RedisActorSpec.v
theories/Proofs/RedisActorProofs.v
theories/Proofs/RedisActorTheorems.v
theories/Properties/RedisActorProperties.v
theories/Model/SystemProgram.v
theories/Model/SystemShared.v
theories/Spec/ProgramSpec.v
theories/Spec/SharedSpec.v
theories/Proofs/ProgramProofs.v
theories/Proofs/ProgramMemory.v
theories/Proofs/SharedProofs.v
theories/Proofs/SharedTheorems.v
theories/Properties/SharedProperties.v
theories/Model/RedisSystem.v
theories/Spec/RedisSystemSpec.v
theories/Proofs/RedisSystemProofs.v
theories/Proofs/RedisSystemTheorems.v
theories/Properties/RedisSystemProperties.v
theories/Spec/ServiceSpec.v
theories/Proofs/RedisSystemLive.v
theories/Proofs/RedisLiveTheorems.v
theories/Properties/RedisLiveProperties.v
theories/Spec/PanicSpec.v
theories/Proofs/SystemPanics.v
theories/Proofs/SystemPanicTheorems.v
theories/Properties/SystemPanicProperties.v
theories/Model/Deployment.v
theories/Spec/DeploymentSpec.v
theories/Proofs/DeploymentProofs.v
theories/Proofs/DeploymentTheorems.v
theories/Properties/DeploymentProperties.v
theories/Spec/SiteSpec.v
theories/Proofs/SiteCounter.v
theories/Proofs/SiteProofs.v
theories/Proofs/SiteTheorems.v
theories/Properties/SiteProperties.v
theories/Spec/ModuleSpec.v
theories/Spec/MergedSpec.v
theories/Proofs/ModuleProofs.v
theories/Proofs/MergedProofs.v
theories/Proofs/ModuleTheorems.v
theories/Properties/ModuleProperties.v
theories/Proofs/MergedTheorems.v
theories/Properties/MergedProperties.v
theories/Model/Errors.v
theories/Model/Builders.v
theories/Spec/MessageSpec.v
theories/Proofs/MessageTheorems.v
theories/Properties/MessageProperties.v
theories/Spec/ParitySpec.v
theories/Proofs/ParityTheorems.v
theories/Properties/ParityProperties.v
theories/Spec/BulkSpec.v
theories/Proofs/BulkProofs.v
theories/Proofs/BulkTheorems.v
theories/Properties/BulkProperties.v
theories/Spec/RestartSpec.v
theories/Proofs/RestartProofs.v
theories/Proofs/RestartTheorems.v
theories/Properties/RestartProperties.v
theories/Spec/FreshSpec.v
theories/Proofs/FreshTheorems.v
theories/Properties/FreshProperties.v
theories/Spec/OwnerSpec.v
theories/Proofs/OwnerProofs.v
theories/Proofs/OwnerTheorems.v
theories/Properties/OwnerProperties.v
theories/Spec/MemorySpec.v
theories/Proofs/MemoryProofs.v
theories/Proofs/MemoryTheorems.v
theories/Properties/MemoryProperties.v
theories/Spec/TurnSpec.v
theories/Proofs/TurnProofs.v
theories/Proofs/TurnTheorems.v
theories/Properties/TurnProperties.v
theories/Spec/GuessSpec.v
theories/Proofs/GuessProofs.v
theories/Proofs/GuessTheorems.v
theories/Properties/GuessProperties.v
theories/Spec/RedisGuessSpec.v
theories/Proofs/RedisGuessProofs.v
theories/Proofs/RedisGuessTheorems.v
theories/Properties/RedisGuessProperties.v
theories/Spec/HonestSpec.v
theories/Proofs/HonestTheorems.v
theories/Properties/HonestProperties.v
theories/Spec/MixedSpec.v
theories/Proofs/MixedTheorems.v
theories/Properties/MixedProperties.v
theories/Spec/PoolMasterSpec.v
theories/Proofs/PoolMasterTheorems.v
theories/Properties/PoolMasterProperties.v
theories/Proofs/VisitorTheorems.v
theories/Properties/VisitorProperties.v
theories/Model/SystemPool.v
theories/Spec/PoolSpec.v
theories/Proofs/PoolProofs.v
theories/Proofs/PoolTheorems.v
theories/Properties/PoolProperties.v
theories/Properties/RepoTests.v
