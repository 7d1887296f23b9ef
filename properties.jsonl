{"id": "C01", "title": "Start orders tasks by priority, registration order breaking ties", "statement": "After any sequence of successful picoRTOS_add_task calls followed by picoRTOS_start, picoRTOS_self() identifiers are assigned in ascending priority value, tasks sharing a priority keep their registration order, no task is lost, duplicated or mixed up with another one's stack.", "quantifier": "every configuration and every list of registered tasks (any length up to CONFIG_TASK_COUNT, any priorities)", "why_tests_cant": "the in-place sort runs over every permutation and multiset of priorities; tests try one ten-task list", "anchors": ["scheduler/picoRTOS.c:core_sort_tasks", "scheduler/picoRTOS.c:task_core_quickswap", "scheduler/picoRTOS.c:picoRTOS_add_task", "scheduler/picoRTOS.c:picoRTOS_start"]}
{"id": "C02", "title": "Every tick dispatches the highest-priority eligible task", "statement": "Right after any system tick the running task is eligible (ready, and its turn among the tasks sharing its priority) and no eligible task has a numerically lower priority.", "quantifier": "every reachable scheduler state, every history of ticks and syscalls, every tick value including wrap-around", "why_tests_cant": "depends on every combination of sleeping/killed/ready tasks and tick values", "anchors": ["scheduler/picoRTOS.c:picoRTOS_tick", "scheduler/picoRTOS.c:task_core_is_available", "scheduler/picoRTOS-lite.c:picoRTOS_tick"]}
{"id": "C03", "title": "A yield hands the CPU to the next eligible task of lower priority", "statement": "When the running task sleeps, kills itself or gives up its slice and no task is postponed, the CPU goes to the first eligible task after it in priority order, and to idle only if there is none.", "quantifier": "every reachable state and every syscall other than postpone", "why_tests_cant": "all ready/sleeping combinations", "anchors": ["scheduler/picoRTOS.c:syscall_switch_context", "scheduler/picoRTOS.c:picoRTOS_syscall"]}
{"id": "C04", "title": "Within one tick tasks run in strictly descending priority, each at most once, unless somebody postpones", "statement": "Between two ticks, as long as no task calls picoRTOS_postpone, the sequence of dispatched tasks is strictly increasing in identifier, so no task is dispatched twice and no task ever waits for a lower-priority one.", "quantifier": "every history between two ticks", "why_tests_cant": "arbitrarily long syscall sequences", "anchors": ["scheduler/picoRTOS.c:syscall_switch_context"]}
{"id": "C05", "title": "Shared priority: exactly one member has the turn at each tick", "statement": "Among the tasks registered with the same priority, at every tick value exactly one has its turn, so two tasks of the same priority never compete within a tick.", "quantifier": "every set of registered tasks, every tick value", "why_tests_cant": "all group sizes and all 2^w tick values", "anchors": ["scheduler/picoRTOS.c:task_core_is_available", "scheduler/picoRTOS.c:core_arrange_shared_priorities"]}
{"id": "C06", "title": "Shared priority: bounded waiting", "statement": "Every member of a group of n tasks sharing a priority gets its turn in any window of 2n-1 consecutive ticks, even across the tick counter wrap-around, and in any window of n ticks that does not cross a wrap of the (truncated) tick.", "quantifier": "every group size, every member, every window of ticks", "why_tests_cant": "wrap-around happens after 2^8..2^64 ticks", "anchors": ["scheduler/picoRTOS.c:task_core_is_available"]}
{"id": "C07", "title": "Shared priority: strict alternation at all times", "statement": "README: tasks sharing a priority are executed alternatively on a tick modulo basis: two consecutive ticks never give the turn to the same member of a group of two or more tasks.", "quantifier": "every group of at least two tasks, every pair of consecutive ticks", "why_tests_cant": "only visible at the wrap of the truncated tick", "anchors": ["scheduler/picoRTOS.c:task_core_is_available", "README.md:Shared priorities"]}
{"id": "C08", "title": "picoRTOS_sleep wakes up after exactly the requested number of ticks", "statement": "A task that calls picoRTOS_sleep(d), d>0, is not dispatched during the next d-1 ticks and is ready right after the d-th tick, whatever the other tasks do, including across tick wrap-around.", "quantifier": "every delay value, every tick value, every history of the other tasks", "why_tests_cant": "2^w delays times 2^w ticks times all interleavings", "anchors": ["scheduler/picoRTOS.c:syscall_sleep", "scheduler/picoRTOS.c:picoRTOS_tick", "scheduler/picoRTOS.c:picoRTOS_sleep"]}
{"id": "C09", "title": "picoRTOS_sleep_until wakes up exactly at *ref + period and never drifts", "statement": "When the deadline is not yet passed, picoRTOS_sleep_until(&ref, period) sets *ref to ref+period (modulo the tick width), and the task becomes ready exactly at the tick equal to the new *ref, at most period ticks later; so iterating it gives wake-up ticks ref0+k*period.", "quantifier": "every ref, period, tick value and history", "why_tests_cant": "wrap-around arithmetic over all values and arbitrarily long histories", "anchors": ["scheduler/picoRTOS.c:syscall_sleep_until", "scheduler/picoRTOS.c:picoRTOS_sleep_until"]}
{"id": "C10", "title": "Late picoRTOS_sleep_until resynchronises *ref", "statement": "Documented: if the period is already elapsed picoRTOS updates *ref to the current tick and continues.", "quantifier": "every late call", "why_tests_cant": "the behaviour changes only after CONFIG_DEADLOCK_COUNT consecutive misses", "anchors": ["scheduler/picoRTOS.c:syscall_sleep_until", "scheduler/picoRTOS.c:picoRTOS_sleep_until"]}
{"id": "C11", "title": "Context integrity", "statement": "Whenever a task is dispatched, the context restored is exactly the one saved the last time that same task was suspended (or its initial context if it never ran).", "quantifier": "every history of ticks and syscalls and every task", "why_tests_cant": "all interleavings of all tasks", "anchors": ["scheduler/picoRTOS.c:picoRTOS_syscall", "scheduler/picoRTOS.c:picoRTOS_tick", "scheduler/picoRTOS.c:task_core_quickcpy"]}
{"id": "C12", "title": "Stack overflow and underflow detection", "statement": "A tick or syscall entered with a stack pointer outside the stack registered for the running task always stalls the system before any task is dispatched, and one inside never trips that check.", "quantifier": "every stack pointer value, every reachable state", "why_tests_cant": "all pointer values", "anchors": ["scheduler/picoRTOS.c:picoRTOS_tick", "scheduler/picoRTOS.c:picoRTOS_syscall"]}
{"id": "C13", "title": "No spurious stall", "statement": "After a successful start, ticks and syscalls issued by user tasks with a valid stack pointer never stall the scheduler, never read outside its tables and always terminate with a dispatched task.", "quantifier": "every reachable state, every operation, every configuration", "why_tests_cant": "all histories; involves loop termination", "anchors": ["scheduler/picoRTOS.c:syscall_switch_context", "scheduler/picoRTOS.c:picoRTOS_tick", "scheduler/picoRTOS-lite.c:syscall_switch_context"]}
{"id": "C14", "title": "picoRTOS_postpone: the task runs again before idle", "statement": "A task that calls picoRTOS_postpone is dispatched again before the idle task is dispatched, unless a new tick occurs first.", "quantifier": "every reachable state and every continuation", "why_tests_cant": "all combinations of several tasks postponing within a tick", "anchors": ["scheduler/picoRTOS.c:picoRTOS_postpone", "scheduler/picoRTOS.c:syscall_switch_context", "README.md:FIFO scheduling"]}
{"id": "C15", "title": "Postpone requests do not survive a tick", "statement": "Immediately after a tick no postpone request is pending: until some task postpones again, the scheduler behaves as if none had been made.", "quantifier": "every history", "why_tests_cant": "needs preemption exactly between a postpone and the next pass", "anchors": ["scheduler/picoRTOS.c:picoRTOS_tick", "RELEASE_NOTES.md:v1.10.3"]}
{"id": "C16", "title": "picoRTOS_kill is final", "statement": "A task that calls picoRTOS_kill is never dispatched again and does not change the turn or wake-up time of any other task.", "quantifier": "every history after the kill", "why_tests_cant": "arbitrary continuation", "anchors": ["scheduler/picoRTOS.c:syscall_kill"]}
{"id": "C17", "title": "picoRTOS_self is stable and unique", "statement": "picoRTOS_self() returns for each task the same value during its whole life and different values for different tasks, and never the mutex 'nobody' value.", "quantifier": "every reachable state, every pair of tasks", "why_tests_cant": "all histories", "anchors": ["scheduler/picoRTOS.c:picoRTOS_self", "ipc/picoRTOS_mutex.c:nobody"]}
{"id": "C18", "title": "picoRTOS_get_tick counts ticks", "statement": "picoRTOS_get_tick() equals the number of ticks since start minus one, modulo the width of picoRTOS_tick_t; syscalls never change it.", "quantifier": "every history", "why_tests_cant": "wrap-around, arbitrary histories", "anchors": ["scheduler/picoRTOS.c:picoRTOS_get_tick", "scheduler/picoRTOS.c:picoRTOS_tick"]}
{"id": "C19", "title": "Registration limits", "statement": "picoRTOS_add_task succeeds exactly when the priority is below CONFIG_TASK_COUNT and fewer than CONFIG_TASK_COUNT tasks are registered, it stalls otherwise, and never alters the tasks already registered.", "quantifier": "every sequence of registrations", "why_tests_cant": "all sequences", "anchors": ["scheduler/picoRTOS.c:picoRTOS_add_task"]}
{"id": "C20", "title": "picoRTOS_get_next_available_priority returns the lowest unused priority", "statement": "Documented: gets the first available (unused) priority in ascending order, stalls if there is none.", "quantifier": "every set and order of registered tasks", "why_tests_cant": "depends on the order of registration", "anchors": ["scheduler/picoRTOS.c:picoRTOS_get_next_available_priority", "scheduler/picoRTOS-SMP.c:picoRTOS_get_next_available_priority"]}
{"id": "C21", "title": "picoRTOS_get_last_available_priority returns the highest unused priority", "statement": "Documented: gets the first available (unused) priority in descending order, stalls if there is none.", "quantifier": "every set and order of registered tasks, on picoRTOS, picoRTOS-SMP and picoRTOS-lite", "why_tests_cant": "depends on the order of registration", "anchors": ["scheduler/picoRTOS.c:picoRTOS_get_last_available_priority", "scheduler/picoRTOS-lite.c:picoRTOS_get_last_available_priority"]}
{"id": "C22", "title": "picoRTOS_start writes only inside its own tables", "statement": "Starting the scheduler never writes outside the arrays it owns, whatever tasks were registered.", "quantifier": "every configuration and list of registered tasks", "why_tests_cant": "memory corruption is silent", "anchors": ["scheduler/picoRTOS.c:core_arrange_shared_priorities", "scheduler/picoRTOS-SMP.c:core_arrange_shared_priorities"]}
{"id": "C23", "title": "picoRTOS_task_init gives an aligned stack inside the caller's buffer", "statement": "For any buffer and size accepted by picoRTOS_task_init, the stack recorded is cache-line aligned at both ends, and lies inside the caller's buffer.", "quantifier": "every address, every size, every line size and element size", "why_tests_cant": "all addresses and sizes", "anchors": ["scheduler/picoRTOS.c:picoRTOS_task_init", "scheduler/picoRTOS.c:L1_CACHE_ALIGN"]}
{"id": "C24", "title": "A stack accepted by picoRTOS_task_init has at least ARCH_MIN_STACK_COUNT usable elements", "statement": "If picoRTOS_task_init does not stall, the recorded stack holds at least ARCH_MIN_STACK_COUNT elements.", "quantifier": "every address and size accepted", "why_tests_cant": "depends on the alignment of the buffer", "anchors": ["scheduler/picoRTOS.c:picoRTOS_task_init"]}
{"id": "C25", "title": "A task added after start is scheduled", "statement": "A task registered with picoRTOS_add_task after picoRTOS_start with an unused priority gets the CPU once every task of higher priority sleeps.", "quantifier": "every registered set at start", "why_tests_cant": "depends on how many slots were free at start", "anchors": ["scheduler/picoRTOS.c:picoRTOS_add_task", "scheduler/picoRTOS.c:core_arrange_shared_priorities"]}
{"id": "C26", "title": "Idle runs only when nobody can", "statement": "After a tick the idle task is running only if no user task is eligible; when idle is dispatched by a syscall no eligible task remains that did not already run since the last tick.", "quantifier": "every reachable state", "why_tests_cant": "all histories", "anchors": ["scheduler/picoRTOS.c:picoRTOS_tick", "scheduler/picoRTOS.c:syscall_switch_context"]}
{"id": "C27", "title": "Scheduler API called before start stalls", "statement": "Before picoRTOS_start, every API call which needs a running scheduler stalls the system and changes nothing.", "quantifier": "every pre-start state, every such API call", "why_tests_cant": "all pre-start states", "anchors": ["scheduler/picoRTOS.c:picoRTOS_sleep", "scheduler/picoRTOS.c:picoRTOS_postpone", "scheduler/picoRTOS.c:picoRTOS_kill", "scheduler/picoRTOS.c:picoRTOS_self", "scheduler/picoRTOS.c:picoRTOS_get_tick"]}
{"id": "C28", "title": "picoRTOS-lite: one task per priority, identifier = priority", "statement": "On picoRTOS-lite a priority accepts exactly one task, a second registration stalls, and picoRTOS_self() returns the priority given at registration.", "quantifier": "every sequence of registrations and every history", "why_tests_cant": "all sequences", "anchors": ["scheduler/picoRTOS-lite.c:picoRTOS_add_task", "scheduler/picoRTOS-lite.c:picoRTOS_self"]}
{"id": "C29", "title": "SMP: a task never runs on two cores at once", "statement": "With picoRTOS-SMP, at any time two different cores run two different tasks.", "quantifier": "every number of cores, every interleaving of ticks and syscalls of all cores", "why_tests_cant": "all multi-core interleavings", "anchors": ["scheduler/picoRTOS-SMP.c:picoRTOS_tick", "scheduler/picoRTOS-SMP.c:syscall_switch_context"]}
{"id": "C30", "title": "SMP: core affinity", "statement": "With picoRTOS-SMP a task only ever runs on the cores of the mask it was registered with.", "quantifier": "every mask, every interleaving", "why_tests_cant": "all multi-core interleavings", "anchors": ["scheduler/picoRTOS-SMP.c:picoRTOS_SMP_add_task", "scheduler/picoRTOS-SMP.c:task_core_is_available"]}
{"id": "C31", "title": "SMP: the system tick advances once per round of core ticks", "statement": "With n cores, the system tick advances on the 1st, (n+1)th, (2n+1)th... tick interrupt whatever the order in which the cores take them, never otherwise.", "quantifier": "every interleaving of core ticks and syscalls", "why_tests_cant": "all interleavings", "anchors": ["scheduler/picoRTOS-SMP.c:picoRTOS_tick"]}
{"id": "C32", "title": "SMP: each core dispatches the best task allowed on it", "statement": "After a tick on a core, the task dispatched on it is the highest-priority task that is ready, has its turn, is allowed on this core and does not run on another core.", "quantifier": "every reachable state", "why_tests_cant": "all interleavings", "anchors": ["scheduler/picoRTOS-SMP.c:picoRTOS_tick"]}
{"id": "C33", "title": "SMP: exact sleep, context integrity and no spurious stall", "statement": "The sleep duration, context integrity and absence of spurious stall guarantees hold for picoRTOS-SMP with any number of cores.", "quantifier": "every interleaving of all cores", "why_tests_cant": "all interleavings", "anchors": ["scheduler/picoRTOS-SMP.c:picoRTOS_syscall", "scheduler/picoRTOS-SMP.c:picoRTOS_tick"]}
{"id": "C34", "title": "SMP: postpone guarantee", "statement": "With picoRTOS-SMP, a task that calls picoRTOS_postpone is dispatched again before the core it ran on goes idle, unless a new tick occurs or another core takes it.", "quantifier": "every interleaving", "why_tests_cant": "needs another core to go idle in between", "anchors": ["scheduler/picoRTOS-SMP.c:picoRTOS_postpone", "scheduler/picoRTOS-SMP.c:syscall_switch_context"]}
{"id": "C35", "title": "Futex mutual exclusion", "statement": "Between a successful picoRTOS_futex_lock/trylock and the matching unlock no other task's lock/trylock succeeds, for tasks that only unlock what they locked.", "quantifier": "any number of tasks, any interleaving of their atomic steps", "why_tests_cant": "all interleavings", "anchors": ["ipc/picoRTOS_futex.c:picoRTOS_futex_trylock", "ipc/picoRTOS_futex.c:picoRTOS_futex_unlock"]}
{"id": "C36", "title": "Lock calls never return without the lock, and give up only after the deadlock count", "statement": "picoRTOS_futex_lock and picoRTOS_mutex_lock return only when the caller owns the lock; they stall only after CONFIG_DEADLOCK_COUNT+1 failed attempts spread over CONFIG_DEADLOCK_COUNT one-tick sleeps.", "quantifier": "every behaviour of the other tasks, every deadlock count", "why_tests_cant": "needs CONFIG_DEADLOCK_COUNT failed attempts", "anchors": ["ipc/picoRTOS_futex.c:picoRTOS_futex_lock", "ipc/picoRTOS_mutex.c:picoRTOS_mutex_lock"]}
{"id": "C37", "title": "Mutex mutual exclusion", "statement": "At most one task owns a mutex at any time, for any interleaving of lock, trylock and unlock calls at the granularity of individual memory accesses.", "quantifier": "any number of tasks, any interleaving", "why_tests_cant": "all interleavings", "anchors": ["ipc/picoRTOS_mutex.c:picoRTOS_mutex_trylock", "ipc/picoRTOS_mutex.c:picoRTOS_mutex_unlock"]}
{"id": "C38", "title": "Mutex re-entrancy", "statement": "The owner can lock again without blocking and the mutex becomes available to others exactly after as many unlocks as successful locks.", "quantifier": "any nesting depth, any interleaving", "why_tests_cant": "unbounded nesting and interleavings", "anchors": ["ipc/picoRTOS_mutex.c:picoRTOS_mutex_trylock", "ipc/picoRTOS_mutex.c:picoRTOS_mutex_unlock"]}
{"id": "C39", "title": "Mutex unlock by a non-owner stalls", "statement": "picoRTOS_mutex_unlock called by a task that does not own the mutex stalls the system and leaves the mutex unchanged.", "quantifier": "any interleaving", "why_tests_cant": "all interleavings", "anchors": ["ipc/picoRTOS_mutex.c:picoRTOS_mutex_unlock"]}
{"id": "C40", "title": "Condition wait gives the mutex back", "statement": "A task that calls picoRTOS_cond_wait owning the mutex once releases it while waiting and owns it once again when the call returns.", "quantifier": "any number of tasks, any interleaving", "why_tests_cant": "all interleavings", "anchors": ["ipc/picoRTOS_cond.c:picoRTOS_cond_wait"]}
{"id": "C41", "title": "No spurious condition wake-up", "statement": "picoRTOS_cond_wait returns only after a signal or broadcast, and the number of returns never exceeds what the signals (one each) and broadcasts (one per waiter) allow.", "quantifier": "any number of tasks, any interleaving", "why_tests_cant": "all interleavings", "anchors": ["ipc/picoRTOS_cond.c:picoRTOS_cond_wait", "ipc/picoRTOS_cond.c:picoRTOS_cond_signal"]}
{"id": "C42", "title": "Each signal wakes a waiting task", "statement": "Documented: signals a condition to a single waiting thread; two signals sent while two tasks wait wake both.", "quantifier": "any number of waiters and signals", "why_tests_cant": "depends on the interleaving", "anchors": ["ipc/picoRTOS_cond.c:picoRTOS_cond_signal"]}
{"id": "C43", "title": "A broadcast wakes all waiting tasks", "statement": "Documented: broadcasts a condition to all waiting threads: every task waiting at the time of the broadcast returns from wait once it gets the mutex.", "quantifier": "any number of waiters, any continuation", "why_tests_cant": "depends on the interleaving", "anchors": ["ipc/picoRTOS_cond.c:picoRTOS_cond_broadcast"]}
{"id": "C44", "title": "Queue is a FIFO for serialized use", "statement": "For reads and writes that do not overlap, PICORTOS_QUEUE behaves as a bounded first-in first-out queue: values come out in order, once each, unmodified; read on empty and write on full return -EAGAIN and change nothing.", "quantifier": "every power-of-two size, every sequence of reads and writes, every index wrap", "why_tests_cant": "all sequences", "anchors": ["ipc/picoRTOS_queue.c:picoRTOS_queue_head_push", "ipc/picoRTOS_queue.c:picoRTOS_queue_head_pop", "ipc/picoRTOS_queue.h:PICORTOS_QUEUE_READ"]}
{"id": "C45", "title": "Queue capacity", "statement": "Documented: count is the size of the queue in number of elements: count writes succeed on an empty queue of size count.", "quantifier": "every power-of-two size", "why_tests_cant": "all sizes", "anchors": ["ipc/picoRTOS_queue.h:PICORTOS_QUEUE", "ipc/picoRTOS_queue.c:picoRTOS_queue_head_init"]}
{"id": "C46", "title": "Queue thread safety", "statement": "Documented: queues are thread-safe: for any interleaving of readers and writers, each value written is read at most once and only values written are read.", "quantifier": "any interleaving of any number of tasks", "why_tests_cant": "needs preemption in a window of a few instructions", "anchors": ["ipc/picoRTOS_queue.h:PICORTOS_QUEUE_READ", "ipc/picoRTOS_queue.h:PICORTOS_QUEUE_WRITE"]}
{"id": "C47", "title": "Interrupt FIFO is a correct single-producer single-consumer queue", "statement": "With one producer and one consumer (task and interrupt handler) interleaved at any memory access, the driver FIFO delivers every accepted element exactly once, in order, unmodified.", "quantifier": "every mask, every interleaving of producer and consumer", "why_tests_cant": "all interleavings", "anchors": ["drivers/include/fifo.h:fifo_head_push", "drivers/include/fifo.h:fifo_head_pop"]}
{"id": "C48", "title": "Delay macros round up", "statement": "PICORTOS_DELAY_SEC/MSEC/USEC give the smallest number of ticks that is not shorter than the requested delay, for every argument whose computation does not overflow.", "quantifier": "every delay, every tick frequency", "why_tests_cant": "all values", "anchors": ["picoRTOS.h:PICORTOS_DELAY_MSEC", "picoRTOS.h:PICORTOS_DELAY_USEC"]}
{"id": "C49", "title": "PICORTOS_DELAY_ELAPSED is wrap-safe", "statement": "PICORTOS_DELAY_ELAPSED(ref, x) is true exactly when at least x ticks passed since ref, provided fewer than 2^w ticks passed.", "quantifier": "every ref, delay and number of ticks elapsed", "why_tests_cant": "wrap-around", "anchors": ["picoRTOS.h:PICORTOS_DELAY_ELAPSED"]}
{"id": "C50", "title": "Port compare-and-swap honours its contract", "statement": "On each port arch_compare_and_swap returns the old value exactly when it stored the new one, even when a reservation is lost in between.", "quantifier": "every port, every value, every outcome of the store-conditional", "why_tests_cant": "the store-conditional fails only if an interrupt hits a 2-instruction window", "anchors": ["arch/riscv/rv32imac/picoRTOS_portasm.S:arch_compare_and_swap", "arch/mips/m51xx/picoRTOS_portasm.S:arch_compare_and_swap", "arch/arm/armv7-m/picoRTOS_portasm.S:arch_compare_and_swap", "arch/powerpc/e200z4/picoRTOS_portasm.S:arch_compare_and_swap"]}
{"id": "C51", "title": "Critical sections last until picoRTOS_resume", "statement": "Between picoRTOS_suspend and picoRTOS_resume no tick is taken, whatever IPC calls the task makes in between.", "quantifier": "every sequence of API calls in the critical section, every port", "why_tests_cant": "needs an interrupt in the window", "anchors": ["arch/avr/picoRTOS_port.c:arch_compare_and_swap", "arch/arm/armv6-m/picoRTOS_port.c:arch_compare_and_swap"]}
{"id": "C52", "title": "picoRTOS_disable_interrupt disables the interrupt", "statement": "After picoRTOS_disable_interrupt(irq), that irq is disabled and the others are unchanged; after picoRTOS_enable_interrupt(irq) it is enabled and the others are unchanged.", "quantifier": "every irq and prior interrupt mask, each port", "why_tests_cant": "needs the hardware register semantics", "anchors": ["arch/arm/armv7-m/picoRTOS_port.c:arch_disable_interrupt", "arch/arm/armv6-m/picoRTOS_port.c:arch_disable_interrupt"]}
{"id": "C53", "title": "Execution-time watermarks bound every measured slice", "statement": "For each task the low and high execution-time watermarks are a lower and an upper bound of every slice measured for it since start, and are attained.", "quantifier": "every history and every counter behaviour", "why_tests_cant": "all histories", "anchors": ["scheduler/picoRTOS.c:task_core_stat_finish"]}
{"id": "C54", "title": "Interrupt-driven UART write reports what it sent", "statement": "uart_write in irq-driven mode returns only after every accepted byte left the FIFO and returns the number of bytes it actually accepted; the bytes sent are a prefix of the caller's buffer.", "quantifier": "every buffer, size, FIFO mask and interleaving with the ISR", "why_tests_cant": "depends on FIFO fill level", "anchors": ["drivers/uart/uart-avr_irqdriven.c:uart_write_irqdriven_start", "drivers/uart/uart-avr_irqdriven.c:uart_write_irqdriven_xfer"]}
{"id": "C55", "title": "xorshift32 never gets stuck and fills the whole buffer", "statement": "rng_read writes exactly n bytes, returns n, and with a non-zero seed the generator never reaches the absorbing zero state; the state update is a bijection, and from any non-zero seed the state visits every non-zero 32-bit word before it repeats (period 2^32-1).", "quantifier": "every seed and every read length history", "why_tests_cant": "2^32 states, unbounded histories", "anchors": ["drivers/rng/rng-xorshift32.c:rng_read", "drivers/rng/rng-xorshift32.c:xorshift32"]}
{"id": "C56", "title": "SMP: an event on one core leaves the other cores alone", "statement": "With picoRTOS-SMP a tick or system call on one core changes neither the task another core runs, nor that task's status, nor its saved context.", "quantifier": "every reachable state, event and pair of cores", "why_tests_cant": "all interleavings of all cores", "anchors": ["scheduler/picoRTOS-SMP.c:picoRTOS_tick", "scheduler/picoRTOS-SMP.c:picoRTOS_syscall"]}
{"id": "C57", "title": "SMP: yielding moves the core to the next task allowed on it", "statement": "With picoRTOS-SMP, on a system call other than postpone and with no postpone request pending, the core switches to the next task after the caller that is ready, has its turn and is allowed on this core, or to its own idle task; the system tick does not change.", "quantifier": "every reachable state, core and system call", "why_tests_cant": "all interleavings and states", "anchors": ["scheduler/picoRTOS-SMP.c:syscall_switch_context", "scheduler/picoRTOS-SMP.c:task_core_is_available"]}
{"id": "C58", "title": "SMP: a killed task never runs again on any core", "statement": "With picoRTOS-SMP a task that calls picoRTOS_kill is never dispatched again, on any core.", "quantifier": "every continuation on all cores", "why_tests_cant": "unbounded histories", "anchors": ["scheduler/picoRTOS-SMP.c:syscall_kill", "scheduler/picoRTOS-SMP.c:picoRTOS_tick"]}
{"id": "C59", "title": "SMP: self and tick", "statement": "With picoRTOS-SMP, picoRTOS_self() called by a user task returns the identifier of the task running on the calling core and picoRTOS_get_tick() the system tick shared by all cores.", "quantifier": "every reachable state and core", "why_tests_cant": "all interleavings", "anchors": ["scheduler/picoRTOS-SMP.c:picoRTOS_self", "scheduler/picoRTOS-SMP.c:picoRTOS_get_tick"]}
{"id": "C60", "title": "SMP: registration limits and start order", "statement": "picoRTOS-SMP starts exactly when every core mask is non-empty and within the configured cores, every priority below CONFIG_TASK_COUNT and there are at most CONFIG_TASK_COUNT tasks, and stalls otherwise; identifiers follow ascending priority then registration order, each slot has that task's own context, stack and mask, each core starts on its own idle task; picoRTOS_add_task allows all cores.", "quantifier": "every list of registrations, number of cores and configuration", "why_tests_cant": "unbounded registrations", "anchors": ["scheduler/picoRTOS-SMP.c:picoRTOS_SMP_add_task", "scheduler/picoRTOS-SMP.c:picoRTOS_add_task", "scheduler/picoRTOS-SMP.c:picoRTOS_start", "scheduler/picoRTOS-SMP.c:task_idle_init"]}
{"id": "C61", "title": "SMP: a stack pointer out of bounds is caught", "statement": "With picoRTOS-SMP a tick or system call entered with a stack pointer outside the stack of the task running on that core never completes.", "quantifier": "every reachable state, core and stack pointer", "why_tests_cant": "all states", "anchors": ["scheduler/picoRTOS-SMP.c:picoRTOS_tick", "scheduler/picoRTOS-SMP.c:picoRTOS_syscall"]}
{"id": "C62", "title": "SMP: an interrupt can be switched per core", "statement": "picoRTOS_SMP_enable_interrupt(irq, mask) delivers irq to the cores of the mask in addition to those that already receive it; picoRTOS_SMP_disable_interrupt(irq, mask) stops it on the cores of the mask only; neither changes any other interrupt.", "quantifier": "every interrupt, non-empty mask, controller state and core, on the e200z4 and e200z7 ports", "why_tests_cant": "all masks times all previous routings times all interrupts", "anchors": ["scheduler/picoRTOS-SMP.c:picoRTOS_SMP_enable_interrupt", "arch/powerpc/e200z4/mach-mpc574x/intc-siul2.c:arch_smp_enable_interrupt", "arch/powerpc/e200z7/mach-mpc577x/intc-siu.c:arch_smp_disable_interrupt"]}
{"id": "C63", "title": "A preempted task loses no register", "statement": "A task interrupted by the tick, or suspended by a system call, finds every one of its registers, its flags and its stack pointer unchanged when it is resumed, at the interrupted instruction (or after the system call), whatever was executed meanwhile; saving its context writes only just below its stack pointer.", "quantifier": "every content of the registers and of memory, every later machine in which the saved context is intact, every port", "why_tests_cant": "all register and memory contents times everything that may run in between; a lost register shows only when another task happens to change it", "anchors": ["arch/arm/armv7-m/picoRTOS_portasm.S:SAVE_CONTEXT", "arch/arm/armv6-m/picoRTOS_portasm.S:SAVE_CONTEXT", "arch/arm/armv7e-m/picoRTOS_portasm.S:SAVE_CONTEXT", "arch/riscv/rv32ec/picoRTOS_portasm.S:SAVE_CONTEXT", "arch/riscv/rv32imac/picoRTOS_portasm.S:SAVE_CONTEXT", "arch/powerpc/e200z4/picoRTOS_portasm.S:SAVE_CONTEXT", "arch/mips/m51xx/picoRTOS_portasm.S:SAVE_CONTEXT", "arch/avr/picoRTOS_portasm.S:SAVE_CONTEXT", "arch/stm8/picoRTOS_portasm.S:SAVE_CONTEXT", "arch/hcs08/picoRTOS_portasm.S:SAVE_CONTEXT"]}
{"id": "C64", "title": "A system call delivers its arguments", "statement": "The scheduler receives exactly the call number and the argument pointer that the task passed to the system call.", "quantifier": "every content of registers and memory, every port", "why_tests_cant": "all argument values and stack contents", "anchors": ["arch/arm/armv7-m/picoRTOS_portasm.S:SVC_Handler", "arch/stm8/picoRTOS_portasm.S:Trap_Handler", "arch/avr/picoRTOS_portasm.S:arch_syscall"]}
{"id": "C65", "title": "A new task starts at its function with its argument", "statement": "The first time a task runs (started or resumed) it is at the function given to picoRTOS_task_init with the given argument, its stack pointer inside its stack; preparing it writes only in its own stack and in the caller's, and keeps the caller's registers.", "quantifier": "every function, argument, stack address of sufficient size and register contents, every port", "why_tests_cant": "all addresses and values", "anchors": ["arch/arm/armv7-m/picoRTOS_portasm.S:arch_save_first_context", "arch/riscv/rv32imac/picoRTOS_portasm.S:arch_start_first_task", "arch/stm8/picoRTOS_port.c:arch_prepare_stack"]}
{"id": "C66", "title": "Tasks do not see the context switches", "statement": "In any execution of any number of tasks on disjoint stacks, running arbitrary code, with any ticks and system calls, a resumed task finds its registers and its stack exactly as it left them, and the task that runs is the one the scheduler selected.", "quantifier": "every application, schedule and machine content, on ARM (v6-M, v7-M, v7E-M), RISC-V, e200, AVR and STM8", "why_tests_cant": "all interleavings of arbitrary code", "anchors": ["scheduler/picoRTOS.c:picoRTOS_tick", "scheduler/picoRTOS.c:picoRTOS_syscall", "arch/arm/armv7-m/picoRTOS_portasm.S:RESTORE_CONTEXT", "arch/arm/armv6-m/picoRTOS_portasm.S:RESTORE_CONTEXT", "arch/arm/armv7e-m/picoRTOS_portasm.S:RESTORE_CONTEXT", "arch/riscv/rv32ec/picoRTOS_portasm.S:RESTORE_CONTEXT", "arch/riscv/rv32imac/picoRTOS_portasm.S:RESTORE_CONTEXT", "arch/powerpc/e200z4/picoRTOS_portasm.S:RESTORE_CONTEXT", "arch/mips/m51xx/picoRTOS_portasm.S:RESTORE_CONTEXT", "arch/avr/picoRTOS_portasm.S:RESTORE_CONTEXT", "arch/stm8/picoRTOS_portasm.S:RESTORE_CONTEXT"]}
{"id": "C67", "title": "Spin lock: two cores are never inside together", "statement": "On the multi-core ports, two cores are never both between arch_spin_lock and arch_spin_unlock (equivalently: inside picoRTOS_tick, picoRTOS_syscall or a picoRTOS_suspend section) at the same time, and a lock that is free is acquired by the next attempt.", "quantifier": "every number of cores, calls, CONFIG_DEADLOCK_COUNT and interleaving of the accesses to the lock, on SEMA4/SEMA42 and RP2040 SIO", "why_tests_cant": "all interleavings of accesses of several cores; the failure needs one core to hold the lock longer than another one spins", "anchors": ["arch/powerpc/e200z4/mach-mpc574x/spinlock-sema42.c:arch_spin_lock", "arch/powerpc/e200z7/mach-mpc577x/spinlock-sema4.c:arch_spin_lock", "arch/arm/armv6-m/mach-rp2040/picoRTOS-SMP_port.c:arch_spin_lock", "arch/include/picoRTOS-SMP_port.h:arch_spin_lock"]}
{"id": "C68", "title": "SMP: concurrent scheduler calls are serializable", "statement": "As long as no core gave up on the spin lock, whenever no core is inside the scheduler its state is the one obtained by executing the ticks and system calls of all cores one after the other, in the order in which they acquired the lock, each core's calls being in program order.", "quantifier": "every interleaving of the individual accesses of all cores, however the calls are cut into accesses", "why_tests_cant": "all interleavings at memory-access granularity", "anchors": ["scheduler/picoRTOS-SMP.c:picoRTOS_tick", "scheduler/picoRTOS-SMP.c:picoRTOS_syscall", "arch/powerpc/e200z4/mach-mpc574x/spinlock-sema42.c:arch_spin_lock"]}
{"id": "C69", "title": "SMP: picoRTOS_self identifies its caller", "statement": "With picoRTOS-SMP, picoRTOS_self() called by a task returns that task's identifier, whatever the ticks and system calls that happen on all cores while it executes.", "quantifier": "every reachable state, affinity mask and interleaving of the call's accesses with events of all cores", "why_tests_cant": "needs a migration between two instructions of the call", "anchors": ["scheduler/picoRTOS-SMP.c:picoRTOS_self", "scheduler/picoRTOS-SMP.c:TASK_CURRENT"]}
{"id": "C70", "title": "picoRTOS_get_tick is never torn", "statement": "picoRTOS_get_tick() returns a value the system tick had at some moment between call and return, even if a tick interrupt occurs meanwhile, whatever the width of the machine's loads.", "quantifier": "every reachable state, tick value and position of the interrupt", "why_tests_cant": "needs a tick interrupt between two bytes of one load, at a carry", "anchors": ["scheduler/picoRTOS.c:picoRTOS_get_tick", "scheduler/picoRTOS-lite.c:picoRTOS_get_tick", "arch/avr/picoRTOS_types.h:picoRTOS_tick_t", "arch/8051/picoRTOS_types.h:picoRTOS_tick_t"]}
{"id": "C71", "title": "SPI transfers are faithful", "statement": "A transfer of n bytes made by calling spi_xfer again for what is left clocks out exactly the caller's frames, in order, each once; it changes nothing but the receive buffer (which may be the transmit buffer), which gets the slave's answers in order; when all n bytes are reported, every frame is out, every answer is stored and the hardware is idle. (PL022, GD32VF103, STM32H7, tinyAVR, DSPI, SERCOM, F28x, AVR, AVR USART; PIC32MX and RA4 with 8 or 32-bit frames, SAM3X and SAMx7x with 9 to 16-bit frames.)", "quantifier": "every buffer, size, number of calls and every timing of the hardware between any two register accesses", "why_tests_cant": "the hardware advances between any two accesses of the driver; a test runs a few timings", "anchors": ["drivers/spi/spi-arm_pl022.c:spi_xfer", "drivers/spi/spi-stm32h7xx.c:spi_xfer", "drivers/spi/spi-gd32vf103.c:spi_xfer", "drivers/spi/spi-nxp_dspi.c:spi_xfer", "drivers/spi/spi-atmel_sercom.c:spi_xfer", "drivers/spi/spi-avr.c:spi_xfer"]}
{"id": "C72", "title": "SPI transfers end", "statement": "A transfer repeated until nothing is left ends, whatever the delays between the driver's accesses, when the hardware is given time between the calls.", "quantifier": "every driver, queue depth, size and timing", "why_tests_cant": "an overrun needs a preemption of the driver between two accesses, with enough frames pending", "anchors": ["drivers/spi/spi-arm_pl022.c:spi_xfer", "drivers/spi/spi-stm32h7xx.c:spi_xfer", "drivers/spi/spi-pic32mx.c:spi_xfer", "drivers/spi/spi-tinyavr.c:spi_xfer"]}
{"id": "C73", "title": "Every byte of an SPI buffer counts", "statement": "For every frame width a driver accepts, a completed transfer of n bytes has clocked out all n bytes of the transmit buffer and filled all n bytes of the receive buffer, and accesses nothing else.", "quantifier": "every driver, frame width, size and timing", "why_tests_cant": "depends on frame width and on the memory beside the buffers", "anchors": ["drivers/spi/spi-pic32mx.c:read_data", "drivers/spi/spi-renesas_ra4.c:receive_data", "drivers/spi/spi-sam3x.c:receive_data", "drivers/spi/spi-atsamx7x.c:receive_data"]}
{"id": "C74", "title": "External flash: erase", "statement": "flash_ext_erase(offset), called again until it stops returning -EAGAIN, changes no byte outside the 4 KiB sector at any moment; once it returns 0 the whole sector reads 0xff, chip and driver are ready for another operation, and the bus has seen write enable, sector erase and status polls only; it does return 0 if bus and chip make progress.", "quantifier": "every chip contents and size, sector, split of the transfers, -EAGAIN from spi_xfer, busy time and number of calls", "why_tests_cant": "depends on where each spi_xfer stops and on when the chip is ready", "anchors": ["drivers/flash-ext/flash-ext-s25fl1.c:flash_ext_erase", "drivers/flash-ext/flash-ext-sst26vf.c:flash_ext_erase", "drivers/flash-ext/flash-ext-s25fl1.c:run_cmd", "drivers/flash-ext/flash-ext-s25fl1.c:run_busy"]}
{"id": "C75", "title": "External flash: write", "statement": "flash_ext_write(offset, data, n), called again until it stops returning -EAGAIN, programs the bytes it says it has written (the returned number) with the caller's data and nothing else.", "quantifier": "every chip contents, page, data, size, split of the transfers and busy time", "why_tests_cant": "depends on the size, on the contents of a static buffer left by former calls and on where each spi_xfer stops", "anchors": ["drivers/flash-ext/flash-ext-s25fl1.c:flash_ext_write", "drivers/flash-ext/flash-ext-sst26vf.c:flash_ext_write"]}
{"id": "C76", "title": "External flash: read", "statement": "flash_ext_read(offset, data, n) returns a number of bytes that are then in data, equal to those of the chip at offset.", "quantifier": "every chip contents, offset, size, split of the transfers", "why_tests_cant": "depends on the chip's contents and on where each spi_xfer stops", "anchors": ["drivers/flash-ext/flash-ext-s25fl1.c:flash_ext_read", "drivers/flash-ext/flash-ext-sst26vf.c:flash_ext_read"]}
{"id": "C77", "title": "External flash: probe", "statement": "flash_ext_probe, called again until it stops returning -EAGAIN, gives the chip's JEDEC identification, and 0 with the size of the part or -EIO if the part is unknown.", "quantifier": "every identification and split of the transfer", "why_tests_cant": "depends on where each spi_xfer stops", "anchors": ["drivers/flash-ext/flash-ext-s25fl1.c:flash_ext_probe", "drivers/flash-ext/flash-ext-sst26vf.c:flash_ext_probe"]}
{"id": "C78", "title": "External flash: bounds", "statement": "flash_ext_read and flash_ext_write accept every range inside the chip and refuse every range that is not.", "quantifier": "every offset, size and chip size", "why_tests_cant": "the boundary depends on all of them", "anchors": ["drivers/flash-ext/flash-ext-s25fl1.c:flash_ext_write", "drivers/flash-ext/flash-ext-sst26vf.c:flash_ext_write", "drivers/flash-ext/flash-ext-sst26vf.c:flash_ext_read"]}
{"id": "C79", "title": "External flash: recovery", "statement": "After an operation that failed, the next one, called with a working bus, does what it says.", "quantifier": "every failed operation, moment of the failure and next operation", "why_tests_cant": "the failure may happen at any byte of any operation", "anchors": ["drivers/flash-ext/flash-ext-s25fl1.c:run_cmd", "drivers/flash-ext/flash-ext-s25fl1.c:flash_ext_erase", "drivers/flash-ext/flash-ext-s25fl1.c:flash_ext_write"]}
{"id": "C80", "title": "External flash: quad enable", "statement": "flash_ext_s25fl1_quad_enable(enable), called again until it stops returning -EAGAIN, never changes anything in the chip but the quad enable bit, and returns 0 only once that bit has the value asked for; it does so if bus and chip make progress.", "quantifier": "every contents of the status registers, split of the transfers, busy time and number of calls", "why_tests_cant": "seven commands, each of which may be interrupted anywhere", "anchors": ["drivers/flash-ext/flash-ext-s25fl1.c:flash_ext_s25fl1_quad_enable"]}
{"id": "C81", "title": "8051: context switch", "statement": "On the 8051 a task whose internal stack is moved to external RAM by a tick or a system call goes on later with every register and every byte of its stack as they were, the contexts of the others are untouched, a system call gets the caller's arguments, and a user interrupt changes nothing of the task.", "quantifier": "every register contents, stack depth and contents, stack addresses that do not overlap, and every behaviour of the C code in between", "why_tests_cant": "the length of the copies and the carry of the 16-bit pointers depend on stack depth and address", "anchors": ["arch/8051/picoRTOS_portasm.S:SAVE_CONTEXT", "arch/8051/picoRTOS_portasm.S:RESTORE_CONTEXT", "arch/8051/picoRTOS_portasm.S:SysTick_Handler", "arch/8051/picoRTOS_portasm.S:_arch_syscall", "arch/8051/picoRTOS_portasm.S:Default_Handler"]}
{"id": "C82", "title": "8051: new tasks", "statement": "On the 8051 a task that was added starts at its function, with its argument, on its own stack.", "quantifier": "every function, argument, stack and state of the registers when the task is added", "why_tests_cant": "depends on what the compiler left in registers", "anchors": ["arch/8051/picoRTOS_portasm.S:_arch_save_first_context", "arch/8051/picoRTOS_port.c:arch_prepare_stack"]}
{"id": "C83", "title": "GPIO: tasks on different pins of a port", "statement": "Tasks that call gpio_write, gpio_read and gpio_toggle on different pins of one port do not disturb each other: the level of each pin is what the calls of its own task make it, and pins nobody uses do not change.", "quantifier": "every GPIO driver, number of tasks, sequence of calls and interleaving of their register accesses", "why_tests_cant": "a task is lost between the load and the store of another only under some schedules", "anchors": ["drivers/gpio/gpio-avr.c:gpio_write", "drivers/gpio/gpio-stm32h7xx.c:gpio_toggle", "drivers/gpio/gpio-gd32vf103.c:gpio_toggle", "drivers/gpio/gpio-nxp_siu.c:gpio_write", "drivers/gpio/gpio-nxp_siul2.c:gpio_write", "drivers/gpio/gpio-rp2040_sio.c:gpio_write", "drivers/gpio/gpio-atmel_pio.c:gpio_toggle", "drivers/gpio/gpio-tinyavr.c:gpio_write"]}
{"id": "C84", "title": "GPIO: calls", "statement": "gpio_write gives a pin the level asked for (the other one if it is inverted), gpio_toggle changes it, gpio_read returns it and changes nothing, and no call affects another pin.", "quantifier": "every GPIO driver, pin, inverted or not, and every state of the port", "why_tests_cant": "every combination of pin, inversion and port contents", "anchors": ["drivers/gpio/gpio-renesas_ra4.c:gpio_toggle", "drivers/gpio/gpio-tinyavr.c:gpio_read", "drivers/gpio/gpio-avr.c:gpio_write", "drivers/gpio/gpio-stm32h7xx.c:gpio_write"]}
{"id": "C85", "title": "TWI master: twi_write", "statement": "Calling twi_write until the whole buffer is counted puts on the bus START and the address if TWI_F_S is given, the bytes in order, STOP if TWI_F_P is given, and nothing else, whatever the pace of calls; it ends after a bounded number of calls that find the hardware ready, and a transfer can be split over several buffers.", "quantifier": "every buffer, flags, pace of calls and hardware, acknowledging device and history of the bus", "why_tests_cant": "the state machine advances one step per call; every interleaving of calls and bus events must work", "anchors": ["drivers/twi/twi-avr.c:twi_write", "drivers/twi/twi-avr.c:twi_write_as_master"]}
{"id": "C86", "title": "TWI master: twi_read", "statement": "Calling twi_read until n bytes are there returns the n bytes the device sent, acknowledging all but the last, with START if TWI_F_S is given and STOP if TWI_F_P is given.", "quantifier": "every n, flags, pace of calls and hardware, device and history of the bus", "why_tests_cant": "the acknowledge bit of a byte depends on the count of the call before it", "anchors": ["drivers/twi/twi-avr.c:twi_read", "drivers/twi/twi-avr.c:twi_read_as_master"]}
{"id": "C87", "title": "TWI master: errors", "statement": "If the device does not acknowledge its address or a byte, twi_write and twi_read return an error, do not count the byte, and release the bus.", "quantifier": "every device, buffer, flags, pace of calls and hardware", "why_tests_cant": "a device may refuse at any byte of any transfer", "anchors": ["drivers/twi/twi-avr.c:twi_write_as_master_data", "drivers/twi/twi-avr.c:twi_write_as_master_sla", "drivers/twi/twi-avr.c:twi_read_as_master_sla"]}
{"id": "C88", "title": "EEPROM: what is written is kept and read back", "statement": "eeprom_write, called until it is done, leaves the bytes at their addresses and the rest of the memory as it was; at every moment, power failure included, a first part of the bytes is written and nothing else has changed; eeprom_read returns what the memory holds and does not change it.", "quantifier": "every device id, address, buffer, memory contents, pace of calls and hardware, and crash point", "why_tests_cant": "crash points and the pace of calls against the bus are unbounded", "anchors": ["drivers/eeprom/eeprom-cy15b004j.c:eeprom_read", "drivers/eeprom/eeprom-cy15b004j.c:eeprom_write", "drivers/eeprom/eeprom-cy15b004j.c:setup"]}
{"id": "C89", "title": "EEPROM: errors and release of the bus", "statement": "A transfer of eeprom_read or eeprom_write ends with STOP, and if the device does not answer the call returns an error.", "quantifier": "every device, address, buffer, pace of calls and hardware", "why_tests_cant": "a driver that retries for ever looks busy to any finite test", "anchors": ["drivers/eeprom/eeprom-cy15b004j.c:req_address_read", "drivers/eeprom/eeprom-cy15b004j.c:req_address_write", "drivers/eeprom/eeprom-cy15b004j.c:data_write"]}
{"id": "C90", "title": "C28x: a task finds its registers again", "statement": "A task of c28x that is interrupted by the tick, by an interrupt or that makes a system call finds all its registers, the FPU's included, and its stack pointer again when it is resumed; a new task starts at its function with its argument; the scheduler gets the arguments of the system call.", "quantifier": "every contents of the registers and memory, every position (odd or even) of the stack pointer, any activity of the kernel and of other tasks in between", "why_tests_cant": "depends on the order of some forty saves and restores and on the alignment of the stack pointer when the interrupt comes", "anchors": ["arch/c2000/c28x/picoRTOS_portasm.asm:SAVE_CONTEXT", "arch/c2000/c28x/picoRTOS_portasm.asm:RESTORE_CONTEXT", "arch/c2000/c28x/picoRTOS_portasm.asm:arch_save_first_context"]}
{"id": "C91", "title": "A registered handler is called", "statement": "After any sequence of picoRTOS_register_interrupt, an interrupt calls the function last registered for it, once, with its argument, and then resumes the task; an interrupt nobody registered stops in the debugger; registration writes nothing but the table of handlers.", "quantifier": "every history of registrations, every interrupt of the device, every address of the tables", "why_tests_cant": "the C code that writes the table and the assembly that reads it agree or not for each of up to 768 numbers; no test triggers them all", "anchors": ["arch/arm/armv7-m/picoRTOS_portasm.S:Default_Handler", "arch/riscv/rv32ec/picoRTOS_portasm.S:PlatformDefined_Handler", "arch/riscv/rv32imac/picoRTOS_portasm.S:PlatformDefined_Handler", "arch/mips/m51xx/picoRTOS_portasm.S:Interrupt_Handler", "arch/c2000/c28x/picoRTOS_portasm.asm:Default_Handler", "arch/avr/picoRTOS_portasm.S:ISR_TABLE", "arch/powerpc/e200z4/picoRTOS_portasm.S:ExternalInput_Handler", "arch/8051/picoRTOS_portasm.S:Default_Handler", "arch/stm8/picoRTOS_portasm.S:Default_Handler", "arch/hcs08/picoRTOS_portasm.S:Default_Handler"]}
{"id": "C92", "title": "Enabling and disabling interrupts", "statement": "After any sequence of picoRTOS_enable_interrupt and picoRTOS_disable_interrupt, each interrupt is let through if and only if enabling it was the last request about it.", "quantifier": "every history of requests, every interrupt of the device, every state of the controller before", "why_tests_cant": "depends on the semantics of the controller's registers (write-1-to-set) and on the arithmetic for each number", "anchors": ["arch/arm/armv7-m/picoRTOS_port.c:arch_disable_interrupt", "arch/riscv/rv32ec/mach-ch32v003/intc-pfic.c:arch_disable_interrupt", "arch/riscv/rv32imac/mach-gd32vf103/intc-eclic.c:arch_enable_interrupt", "arch/mips/m51xx/mach-pic32mz/intc.c:arch_enable_interrupt", "arch/c2000/c28x/picoRTOS_port.c:arch_set_irq_status", "arch/powerpc/e200z4/mach-mpc574x/intc-siul2.c:arch_enable_interrupt", "arch/powerpc/e200z7/mach-mpc577x/intc-siu.c:arch_enable_interrupt", "arch/8051/mach-n76e003/interrupt.c:arch_enable_interrupt"]}
{"id": "C93", "title": "SMP: interrupts by core", "statement": "After any sequence of picoRTOS_SMP_enable_interrupt and picoRTOS_SMP_disable_interrupt, each interrupt is let through to a core if and only if enabling was the last request about it with that core in the mask.", "quantifier": "every history of requests and masks, every interrupt and core", "why_tests_cant": "the effect of a call depends on the state left by all earlier ones", "anchors": ["arch/powerpc/e200z4/mach-mpc574x/intc-siul2.c:arch_smp_enable_interrupt", "arch/powerpc/e200z7/mach-mpc577x/intc-siu.c:arch_smp_disable_interrupt"]}
{"id": "C94", "title": "uart_write reports what it sends", "statement": "Whatever the line does, the bytes a polled UART sends or still queues are exactly the concatenation of the prefixes uart_write reported as written, in order; it returns a count between 1 and n, -EAGAIN only when there was no room, or -EINVAL for an empty buffer.", "quantifier": "every program of reads and writes, every buffer, every interleaving of the line with the driver", "why_tests_cant": "the line may take or bring a byte between any two register accesses", "anchors": ["drivers/uart/uart-arm_pl011.c:uart_write", "drivers/uart/uart-atmel_sercom.c:uart_write", "drivers/uart/uart-atsamx7x.c:uart_write", "drivers/uart/uart-atsamx7x_usart.c:uart_write", "drivers/uart/uart-avr.c:uart_write", "drivers/uart/uart-gd32vf103.c:uart_write", "drivers/uart/uart-pic32mx.c:uart_write", "drivers/uart/uart-renesas_ra4_sci.c:uart_write", "drivers/uart/uart-stm32h7xx.c:uart_write", "drivers/uart/uart-tinyavr_usart.c:uart_write", "drivers/uart/uart-nxp_linflexd.c:uart_write"]}
{"id": "C95", "title": "uart_read delivers what was received", "statement": "The bytes uart_read delivers, followed by those that wait in the receiver, are exactly the bytes the receiver took, in order and without repetition; it delivers nothing only when nothing waits, and an error on the line does not stop it for good.", "quantifier": "every program of reads and writes, every interleaving of the line with the driver, every pattern of framing errors and overruns", "why_tests_cant": "bytes and errors may come in between any two register accesses", "anchors": ["drivers/uart/uart-arm_pl011.c:uart_read", "drivers/uart/uart-atmel_sercom.c:uart_read", "drivers/uart/uart-atsamx7x.c:uart_read", "drivers/uart/uart-atsamx7x_usart.c:uart_read", "drivers/uart/uart-avr.c:uart_read", "drivers/uart/uart-gd32vf103.c:uart_read", "drivers/uart/uart-pic32mx.c:uart_read", "drivers/uart/uart-renesas_ra4_sci.c:uart_read", "drivers/uart/uart-stm32h7xx.c:uart_read", "drivers/uart/uart-tinyavr_usart.c:uart_read", "drivers/uart/uart-nxp_linflexd.c:uart_read"]}
{"id": "C96", "title": "uart_setup gives the baud rate it is asked for", "statement": "When uart_setup with a baud rate succeeds, a bit on the line lasts frequency / baud rate clocks, up to less than a step of the baud rate generator; a rate the generator cannot produce is refused; there is no undefined behaviour.", "quantifier": "every clock frequency below 2^31, every baud rate, every register state", "why_tests_cant": "two 32-bit inputs; truncations, overflows and field widths matter at values no test picks", "anchors": ["drivers/uart/uart-arm_pl011.c:set_baudrate", "drivers/uart/uart-atmel_sercom.c:set_baudrate", "drivers/uart/uart-atsamx7x.c:set_baudrate", "drivers/uart/uart-sam3x.c:set_baudrate", "drivers/uart/uart-atsamx7x_usart.c:set_baudrate", "drivers/uart/uart-avr.c:set_baudrate", "drivers/uart/uart-gd32vf103.c:set_baudrate", "drivers/uart/uart-pic32mx.c:set_baudrate", "drivers/uart/uart-renesas_ra4_sci.c:set_baudrate", "drivers/uart/uart-stm32h7xx.c:set_baudrate", "drivers/uart/uart-tinyavr_usart.c:set_baudrate", "drivers/uart/uart-nxp_linflexd.c:set_baudrate"]}
{"id": "C97", "title": "uart_setup gives the frame format it is asked for", "statement": "When uart_setup succeeds, the number of data bits, parity and stop bits on the line are those asked for, and those not asked for are unchanged; when it fails the frame format is unchanged and the UART still works.", "quantifier": "every combination of settings, every register state, with or without a baud rate", "why_tests_cant": "the result depends on all bits the registers had before", "anchors": ["drivers/uart/uart-arm_pl011.c:uart_setup", "drivers/uart/uart-atmel_sercom.c:uart_setup", "drivers/uart/uart-atsamx7x.c:uart_setup", "drivers/uart/uart-atsamx7x_usart.c:uart_setup", "drivers/uart/uart-avr.c:uart_setup", "drivers/uart/uart-gd32vf103.c:uart_setup", "drivers/uart/uart-pic32mx.c:uart_setup", "drivers/uart/uart-renesas_ra4_sci.c:uart_setup", "drivers/uart/uart-stm32h7xx.c:uart_setup", "drivers/uart/uart-tinyavr_usart.c:uart_setup", "drivers/uart/uart-nxp_linflexd.c:uart_setup"]}
{"id": "C98", "title": "flash_erase erases its unit, and it alone", "statement": "When a program calls flash_erase until it does not say -EAGAIN and it says 0, the erase unit at the offset, of the size flash_get_attributes tells, is erased and every other byte of the flash is as before; when it says -EINVAL nothing changed; there is no undefined behaviour.", "quantifier": "every flash content, every offset, every pattern of busy periods, every earlier history of erases and writes", "why_tests_cant": "a wrong byte may be anywhere in a megabyte of flash, and only for some offsets or after some history", "anchors": ["drivers/flash/flash-same5x.c:flash_erase", "drivers/flash/flash-same5x.c:flash_probe", "drivers/flash/flash-atmel_eefc.c:flash_erase", "drivers/flash/flash-gd32vf103.c:flash_erase"]}
{"id": "C99", "title": "flash_write programs what it reports", "statement": "A program that writes a buffer with flash_write, going on after the bytes reported as written and calling again on -EAGAIN, has, when all are reported, programmed exactly its bytes at the offset, and no other byte of the flash changed.", "quantifier": "every flash content, offset and buffer of whole write units, every pattern of busy periods, every earlier history", "why_tests_cant": "depends on how the buffer lies across pages, for every length and offset", "anchors": ["drivers/flash/flash-same5x.c:flash_write", "drivers/flash/flash-atmel_eefc.c:flash_write", "drivers/flash/flash-gd32vf103.c:flash_write"]}
{"id": "C100", "title": "eeprom_read, eeprom_write and eeprom_erase of the AVR", "statement": "eeprom_read gives the byte at the address or -EAGAIN; when eeprom_write or eeprom_erase says 1 the byte at the address, and no other, becomes the byte given (or 0xff).", "quantifier": "every EEPROM content, address and byte, with or without a write under way, and any interrupt in between", "why_tests_cant": "depends on the timing of the previous write and of interrupts", "anchors": ["drivers/eeprom/eeprom-avr.c:eeprom_read", "drivers/eeprom/eeprom-avr.c:eeprom_write", "drivers/eeprom/eeprom-avr.c:eeprom_erase"]}
{"id": "C101", "title": "a tick every 1/CONFIG_TICK_HZ of a second", "statement": "On every port the timer interrupts that make the ticks are CPU frequency / CONFIG_TICK_HZ clocks apart (or the closest the timer can make).", "quantifier": "every CPU frequency and tick frequency the configuration accepts", "why_tests_cant": "a test runs one board with one configuration, and prescalers, widths of registers and roundings depend on it", "anchors": ["arch/arm/armv7e-m/picoRTOS_port.c:arch_init", "arch/arm/armv6-m/mach-rp2040/picoRTOS-SMP_port.c:arch_smp_init", "arch/riscv/rv32ec/mach-ch32v003/timer-stk.c:arch_timer_init", "arch/c2000/c28x/picoRTOS_port.c:arch_init", "arch/avr/timer-tc0.c:arch_timer_init", "arch/avr/timer-rtc.c:arch_timer_init", "arch/stm8/mach-stm8s/timer-awu.c:arch_timer_init", "arch/8051/mach-n76e003/timer-wkt.c:arch_timer_init", "arch/8051/mach-mcs51/timer-t2.c:arch_timer_init", "arch/8051/mach-stc12c5axx/timer-t0.c:arch_timer_ack", "arch/powerpc/e200z7/timer-dec.c:arch_timer_init", "arch/hcs08/mach-mc9s08ptxx/timer-mtim1.c:arch_timer_init", "arch/mips/m51xx/picoRTOS_port.c:arch_init"]}
{"id": "C102", "title": "the system time does not drift", "statement": "Tick k is due k periods after the start, for every k, whatever the delays with which the earlier ticks were served.", "quantifier": "every period, every start time of the counter, every number of ticks and sequence of interrupt latencies shorter than a period", "why_tests_cant": "the counter wraps after minutes or days, and an error of one count in each tick takes as long to see", "anchors": ["arch/mips/m51xx/picoRTOS_portasm.S:INCREMENT_CP0_COMPARE", "arch/riscv/rv32imac/picoRTOS_portasm.S:INCREASE_MTIMECMP", "arch/powerpc/e200z4/mach-mpc574x/timer-stm.c:CMPn", "arch/powerpc/e200z7/mach-mpc577x/timer-stm.c:CMPn"]}
{"id": "C103", "title": "a tick served late", "statement": "When interrupts are kept away longer than a tick period, the ticks go on afterwards, and the system time catches up.", "quantifier": "every period and every sequence of delays", "why_tests_cant": "a delay longer than a period comes from a rare combination of interrupts and critical sections", "anchors": ["arch/mips/m51xx/picoRTOS_portasm.S:INCREMENT_CP0_COMPARE", "arch/riscv/rv32imac/picoRTOS_portasm.S:INCREASE_MTIMECMP", "arch/arm/armv7e-m/picoRTOS_port.c:arch_suspend", "arch/powerpc/e200z4/mach-mpc574x/timer-stm.c:CMPn"]}
{"id": "C104", "title": "arch_delay_us waits at least n microseconds", "statement": "arch_delay_us(n) returns after at least n microseconds.", "quantifier": "every n and every CPU frequency", "why_tests_cant": "the products overflow for some n and frequencies only", "anchors": ["arch/include/picoRTOS_port.h:arch_delay_us", "arch/arm/armv7e-m/picoRTOS_port.c:arch_delay_us", "arch/riscv/rv32imac/picoRTOS_port.c:arch_delay_us", "arch/mips/m51xx/picoRTOS_port.c:arch_delay_us", "arch/avr/timer-tc0.c:arch_delay_us", "arch/avr/timer-rtc.c:arch_delay_us", "arch/8051/mach-mcs51/timer-t2.c:arch_delay_us", "arch/stm8/mach-stm8s/timer-awu.c:arch_delay_us"]}
{"id": "C105", "title": "locks and scheduler together: one holder", "statement": "In a running system two tasks never hold the same futex or mutex, whichever of them was preempted or sleeps, and the scheduler behaves as if the locks were not there.", "quantifier": "every set of tasks, every sequence of ticks, system calls and IPC calls, preemption between any two memory accesses", "why_tests_cant": "only some interleavings of the scheduler and the IPC functions would break it", "anchors": ["ipc/picoRTOS_futex.c:picoRTOS_futex_lock", "ipc/picoRTOS_mutex.c:picoRTOS_mutex_lock", "scheduler/picoRTOS.c:picoRTOS_tick", "scheduler/picoRTOS.c:picoRTOS_syscall"]}
{"id": "C106", "title": "deadlock is declared only after CONFIG_DEADLOCK_COUNT ticks", "statement": "picoRTOS_futex_lock and picoRTOS_mutex_lock stop the system only if the lock could not be had for CONFIG_DEADLOCK_COUNT system ticks since the call.", "quantifier": "every configuration, every behaviour of the other tasks, every schedule", "why_tests_cant": "depends on how often the waiting task is dispatched, for every mix of sleeping and postponing tasks", "anchors": ["ipc/picoRTOS_futex.c:picoRTOS_futex_lock", "ipc/picoRTOS_mutex.c:picoRTOS_mutex_lock", "picoRTOS.h:picoRTOS_schedule"]}
{"id": "C107", "title": "a free lock goes to the waiting task as soon as it runs", "statement": "A task that waits for a lock is ready again at the next tick, runs at that tick if it is its turn and nobody more urgent can run, and, whenever it runs again and the lock is free, returns with the lock without sleeping or giving the processor away.", "quantifier": "every configuration, waiting task and schedule", "why_tests_cant": "the lock may be given back at any point of any schedule", "anchors": ["ipc/picoRTOS_futex.c:picoRTOS_futex_lock", "ipc/picoRTOS_mutex.c:picoRTOS_mutex_lock", "scheduler/picoRTOS.c:picoRTOS_tick"]}
{"id": "C108", "title": "a lock whose holder can run is no deadlock", "statement": "picoRTOS_futex_lock does not stop the system while the holder of the lock is ready to run.", "quantifier": "every set of tasks and schedule", "why_tests_cant": "needs three tasks of different priorities in a certain order", "anchors": ["ipc/picoRTOS_futex.c:picoRTOS_futex_lock", "scheduler/picoRTOS.c:picoRTOS_tick"]}
{"id": "C109", "title": "PWM: the timer clock is the clock the driver counts with", "statement": "After a successful setup of a PWM block its timer runs at the frequency the driver uses to convert microseconds into counts.", "quantifier": "every prescaler setting, in every order", "why_tests_cant": "only some settings, or the second setup of a block, would show it", "anchors": ["drivers/pwm/pwm-gd32vf103.c:set_frequency", "drivers/pwm/pwm-avr.c:set_clock_select", "drivers/pwm/pwm-nxp_emios.c:pwm_nxp_emios_setup", "drivers/pwm/pwm-tinyavr_tca.c:set_clksel", "drivers/pwm/pwm-same5x_tc.c:set_prescaler", "drivers/pwm/pwm-atsamx7x_tc.c:parent_get_freq"]}
{"id": "C110", "title": "pwm_set_period sets the period", "statement": "If pwm_set_period(us) returns 0 the output has a period of us microseconds to within one count of the timer, whatever was set before; if it returns an error nothing changes; periods the timer can make are accepted.", "quantifier": "every driver, input clock, period (32 bits) and earlier state", "why_tests_cant": "2^32 periods times all clocks; wrong only at boundaries of prescalers, registers and products", "anchors": ["drivers/include/pwm.h:pwm_set_period", "drivers/pwm/pwm-rp2040.c:pwm_set_period", "drivers/pwm/pwm-pic32mx.c:pwm_set_period", "drivers/pwm/pwm-stm32h7xx_tim.c:pwm_set_period", "drivers/pwm/pwm-ti_epwm.c:pwm_set_period", "drivers/pwm/pwm-renesas_ra4_gpt.c:pwm_set_period"]}
{"id": "C111", "title": "pwm_set_duty_cycle sets the duty cycle", "statement": "After pwm_set_duty_cycle(dc) the output is active for dc/65535 of the period to within two counts: never for 0, always for PWM_DUTY_CYCLE_MAX, and not less for more.", "quantifier": "every driver, period and duty cycle", "why_tests_cant": "65536 duty cycles times all periods; overflow only for some", "anchors": ["drivers/include/pwm.h:pwm_set_duty_cycle", "drivers/pwm/pwm-nxp_emios.c:pwm_set_duty_cycle", "drivers/pwm/pwm-gd32vf103.c:pwm_set_duty_cycle", "drivers/pwm/pwm-atsamx7x_tc.c:pwm_set_duty_cycle"]}
{"id": "C112", "title": "the PWM outputs of a timer are independent", "statement": "Setting the duty cycle of one output leaves the others and the period alone, and a duty cycle is right on each output after the period was set through any of them.", "quantifier": "every driver, pair of outputs and order of calls", "why_tests_cant": "needs two outputs of the same timer in every order of calls", "anchors": ["drivers/pwm/pwm-stm32h7xx_tim.c:pwm_set_duty_cycle", "drivers/pwm/pwm-same5x_tc.c:set_duty_cycle16", "drivers/pwm/pwm-avr.c:pwm_set_duty_cycle"]}
{"id": "C113", "title": "pwm_start and pwm_stop concern one output", "statement": "After pwm_start the output runs, after pwm_stop it does not, with the period and duty cycle set before; the other outputs are not affected.", "quantifier": "every driver, state and pair of outputs", "why_tests_cant": "needs every combination of running outputs", "anchors": ["drivers/include/pwm.h:pwm_start", "drivers/include/pwm.h:pwm_stop", "drivers/pwm/pwm-stm32h7xx_tim.c:pwm_stop", "drivers/pwm/pwm-tinyavr_tca.c:pwm_stop"]}
{"id": "C114", "title": "ipwm measures what is there", "statement": "ipwm_get_period and ipwm_get_duty_cycle return the period in microseconds and the duty cycle in 65535ths of the captured signal, rounded down.", "quantifier": "every captured value, clock, elapsed time", "why_tests_cant": "overflow and division by 0 depend on the signal", "anchors": ["drivers/include/ipwm.h:ipwm_get_period", "drivers/include/ipwm.h:ipwm_get_duty_cycle", "drivers/pwm/pwm-sam3x_tc.c:ipwm_get_duty_cycle_acq", "drivers/pwm/pwm-nxp_emios.c:ipwm_get_period_acq", "drivers/pwm/pwm-rp2040.c:ipwm_get_duty_cycle_acq"]}
{"id": "C115", "title": "the watchdog has the timeout asked for", "statement": "After a successful setup and wd_start the watchdog runs, and its timeout is the one asked for to within a step of its counter; timeouts the hardware can do are accepted.", "quantifier": "every watchdog driver, clock, timeout and state of the block before", "why_tests_cant": "2^32 timeouts times clocks; a wrong timeout only shows when the system hangs", "anchors": ["drivers/include/wd.h:wd_start", "drivers/wd/wd-atmel_wdt.c:wd_atmel_wdt_setup", "drivers/wd/wd-sam3x.c:wd_sam3x_setup", "drivers/wd/wd-gd32vf103_fwdgt.c:wd_gd32vf103_fwdgt_setup", "drivers/wd/wd-stm32h7xx_iwdg.c:wd_stm32h7xx_iwdg_setup", "drivers/wd/wd-rp2040.c:wd_rp2040_setup", "drivers/wd/wd-ti_f28x.c:wd_start", "drivers/wd/wd-avr.c:wd_start", "drivers/wd/wd-pic32mx.c:wd_pic32mx_setup"]}
{"id": "C116", "title": "a watchdog setup that fails changes nothing", "statement": "If the setup of a watchdog returns an error its timeout, window and state are what they were.", "quantifier": "every driver, setting and state", "why_tests_cant": "errors are rare and the effect shows much later", "anchors": ["drivers/wd/wd-same5x.c:wd_same5x_setup", "drivers/wd/wd-stm32h7xx_iwdg.c:wd_stm32h7xx_iwdg_setup", "drivers/wd/wd-tinyavr.c:wd_tinyavr_setup"]}
{"id": "C117", "title": "wd_stop stops the watchdog", "statement": "If wd_stop returns 0 the watchdog does not reset the system any more, however long nobody refreshes it.", "quantifier": "every driver and state, every history after the call, interrupts at any point in it", "why_tests_cant": "an absence for all time; depends on earlier writes and on interrupts between two instructions", "anchors": ["drivers/include/wd.h:wd_stop", "drivers/wd/wd-gd32vf103_fwdgt.c:wd_stop", "drivers/wd/wd-ti_f28x.c:wd_stop", "drivers/wd/wd-avr.c:wd_stop", "drivers/wd/wd-atmel_wdt.c:wd_stop"]}
{"id": "C118", "title": "the watchdog resets exactly when it is not refreshed in time", "statement": "A running watchdog resets the system if and only if some call of wd_refresh comes later than the timeout after the last one, or inside the closed window.", "quantifier": "every driver, configuration and history of clocks and refreshes, of any length", "why_tests_cant": "all histories", "anchors": ["drivers/include/wd.h:wd_refresh", "drivers/wd/wd-rp2040.c:wd_refresh", "drivers/wd/wd-ti_f28x.c:wd_refresh", "drivers/wd/wd-pic32mx.c:wd_refresh"]}
{"id": "C119", "title": "the window of the watchdog is the one asked for", "statement": "After setup and wd_start wd_refresh is refused for exactly the time asked for, and not at all if no window was.", "quantifier": "every driver, setting and state before", "why_tests_cant": "needs a second setup, or a refresh in every clock of the window", "anchors": ["drivers/wd/wd-same5x.c:wd_same5x_setup", "drivers/wd/wd-pic32mx.c:wd_pic32mx_setup", "drivers/wd/wd-stm32h7xx_iwdg.c:wd_stm32h7xx_iwdg_setup"]}
{"id": "C120", "title": "can_write sends exactly the frame asked for", "statement": "If can_write(id, buf, n) returns n then one mailbox that was not waiting to be sent holds, ready to be sent, the frame with identifier id (11 bits below 2048, 29 above) and the n bytes of buf, and no other mailbox changed. Otherwise it returns an error and nothing new is sent.", "quantifier": "every identifier, buffer, length and state of the controller and driver, four drivers", "why_tests_cant": "2^29 identifiers times contents times mailbox states, and bit layouts of four controllers", "anchors": ["drivers/can/can-sam3x.c:can_write", "drivers/can/can-nxp_flexcan.c:can_write", "drivers/can/can-ti_dcan.c:can_write", "drivers/can/can-bosch_mcan.c:can_write", "drivers/include/can.h:can_write"]}
{"id": "C121", "title": "can_read returns a received frame, whole and once", "statement": "If can_read returns n >= 0 then one mailbox that held a received frame is emptied, the identifier and the n bytes are those of the frame, and no more than the buffer is written. A frame that is there is not missed.", "quantifier": "every history of calls and arriving frames", "why_tests_cant": "all histories and all frames", "anchors": ["drivers/can/can-sam3x.c:can_read", "drivers/can/can-nxp_flexcan.c:can_read", "drivers/can/can-ti_dcan.c:can_read", "drivers/can/can-bosch_mcan.c:can_read", "drivers/include/can.h:can_read"]}
{"id": "C122", "title": "the frames received are those can_accept asked for", "statement": "After any history of calls a frame on the bus is taken if and only if some call can_accept(id, mask) that returned 0 has the same kind of identifier and agrees with the frame on the bits in mask.", "quantifier": "every history, every frame", "why_tests_cant": "2^29 identifiers times masks times histories", "anchors": ["drivers/can/can-sam3x.c:can_accept", "drivers/can/can-nxp_flexcan.c:can_accept", "drivers/can/can-ti_dcan.c:can_accept", "drivers/can/can-bosch_mcan.c:can_accept", "drivers/include/can.h:can_accept"]}
{"id": "C123", "title": "the CAN bit rate is exactly the one asked for", "statement": "If can_setup returns 0 the bit time is exactly the clock divided by the bit rate, sampled at about 87 percent, and the controller is on; if a prescaler that makes this possible exists, setup does not fail; if it fails the controller runs on as before.", "quantifier": "every clock frequency and bit rate, every state before", "why_tests_cant": "2^64 pairs; a rate off by a little works on the bench and fails on a long bus", "anchors": ["drivers/can/can-sam3x.c:can_setup", "drivers/can/can-nxp_flexcan.c:can_setup", "drivers/can/can-ti_dcan.c:can_setup", "drivers/can/can-bosch_mcan.c:can_setup", "drivers/include/can.h:can_setup"]}
{"id": "C124", "title": "transmit and receive mailboxes never mix", "statement": "After any history can_write changes transmit mailboxes only and can_accept a free receive mailbox only; no call is undefined behaviour.", "quantifier": "every history of calls and frames, any number of transmit mailboxes", "why_tests_cant": "all histories; shows only when indices wrap", "anchors": ["drivers/can/can-sam3x.c:can_write", "drivers/can/can-nxp_flexcan.c:can_write", "drivers/can/can-ti_dcan.c:can_write", "drivers/can/can-bosch_mcan.c:can_write", "drivers/include/can.h:can_write"]}
{"id": "C125", "title": "M_CAN frames come in order", "statement": "Along every history the frames can_read returns are the frames taken, in the order taken, none twice, and none lost; each can be read sooner or later.", "quantifier": "every history of calls and frames of any length", "why_tests_cant": "ring buffer of the hardware: needs all interleavings of arrival and reading", "anchors": ["drivers/can/can-bosch_mcan.c:can_read", "drivers/can/can-bosch_mcan.c:can_setup"]}
{"id": "C126", "title": "M_CAN comes back after bus off", "statement": "While the controller is off the bus can_write fails and sends nothing, at the latest the second call starts the recovery, nothing undoes it, and when it is over writes succeed.", "quantifier": "every state, all arguments, any number of calls", "why_tests_cant": "needs error conditions on the bus", "anchors": ["drivers/can/can-bosch_mcan.c:can_write"]}
{"id": "C127", "title": "adc_read gives the calibrated value", "statement": "The value adc_read stores is the result of the conversion times the multiplier over the divider of adc_setup, rounded towards zero, plus the offset; before adc_setup it is the result itself. No settings adc_setup accepts make adc_read undefined.", "quantifier": "every result, every calibration, ints of 16 and 32 bits, eleven drivers", "why_tests_cant": "all triples of ints; overflow depends on the width of int", "anchors": ["drivers/adc/adc-avr.c:adc_setup", "drivers/adc/adc-tinyavr.c:adc_setup", "drivers/adc/adc-rp2040.c:adc_setup", "drivers/adc/adc-same5x.c:adc_setup", "drivers/adc/adc-nxp_sar.c:adc_setup", "drivers/adc/adc-atmel_afec.c:adc_setup", "drivers/adc/adc-pic32mx.c:adc_setup", "drivers/adc/adc-renesas_ra4.c:adc_setup", "drivers/adc/adc-sam3x.c:adc_setup", "drivers/adc/adc-ti_type4.c:adc_setup", "drivers/adc/adc-stm32h7xx_sar.c:adc_setup", "drivers/include/adc.h:adc_setup", "drivers/include/adc.h:adc_read"]}
{"id": "C128", "title": "adc_read gives the value of the channel of its context, converted after it was asked for", "statement": "Whatever tasks read whatever contexts of a converter in whatever order, each value adc_read gives is the calibrated result of a conversion of the channel that context was made for, begun no earlier than the first call of adc_read that asked for it; else it returns -EAGAIN.", "quantifier": "every history of calls and ends of conversions, every input signal, every list of contexts, nine drivers", "why_tests_cant": "interleavings of calls and conversions: unbounded", "anchors": ["drivers/adc/adc-avr.c:adc_read", "drivers/adc/adc-tinyavr.c:adc_read", "drivers/adc/adc-rp2040.c:adc_read", "drivers/adc/adc-same5x.c:adc_read", "drivers/adc/adc-nxp_sar.c:adc_read", "drivers/adc/adc-atmel_afec.c:adc_read", "drivers/adc/adc-pic32mx.c:adc_read", "drivers/adc/adc-renesas_ra4.c:adc_read", "drivers/adc/adc-sam3x.c:adc_read", "drivers/include/adc.h:adc_read"]}
{"id": "C129", "title": "adc_read ends", "statement": "After any history, once the conversions adc_read asked for have ended, it gives data; polling is not for ever.", "quantifier": "every history, every input signal, every mode setup accepts", "why_tests_cant": "that something never happens cannot be observed", "anchors": ["drivers/adc/adc-avr.c:adc_read", "drivers/adc/adc-tinyavr.c:adc_read", "drivers/adc/adc-rp2040.c:adc_read", "drivers/adc/adc-same5x.c:adc_read", "drivers/adc/adc-nxp_sar.c:adc_read", "drivers/adc/adc-atmel_afec.c:adc_read", "drivers/adc/adc-pic32mx.c:adc_read", "drivers/adc/adc-renesas_ra4.c:adc_read", "drivers/adc/adc-sam3x.c:adc_read", "drivers/include/adc.h:adc_read"]}
{"id": "C130", "title": "setup of a PIC32 ADC channel configures that channel and no other", "statement": "If adc_pic32mx_adc_setup returns 0 the trigger source, its level sensitivity and the input mode of the channel are those asked for, and those of all other channels are as before.", "quantifier": "every channel, source, mode and previous content of the registers", "why_tests_cant": "64 channels times register contents", "anchors": ["drivers/adc/adc-pic32mx.c:set_trgsrc_and_lvl", "drivers/adc/adc-pic32mx.c:set_input_mode", "drivers/adc/adc-pic32mx.c:add_channel_to_css"]}
{"id": "C131", "title": "the ADC clock is the one asked for, within what the converter takes", "statement": "If setup returns 0 the clock of the converter is within a factor of two of the one asked for and never above it; every clock that can be had is accepted. Write protection is on once protect asked for it.", "quantifier": "every peripheral clock and every ADC clock", "why_tests_cant": "2^64 pairs", "anchors": ["drivers/adc/adc-tinyavr.c:adc_tinyavr_setup", "drivers/adc/adc-atmel_afec.c:adc_atmel_afec_init", "drivers/adc/adc-atmel_afec.c:adc_atmel_afec_protect"]}
{"id": "C132", "title": "TI ADC: each channel owns its slots, and adc_read_multiple gives exactly their results", "statement": "After any history of adc_init and setup the slots of the channels are disjoint and convert the channel they belong to, and the interrupt flag of a channel is set when its last slot is done. adc_read_multiple triggers only the slots of the channel, and gives and returns the number of the calibrated results of its first n slots.", "quantifier": "every history of calls, every number of channels and slots, all flags and results", "why_tests_cant": "unbounded histories of registration, 16-bit arithmetic of the C28x", "anchors": ["drivers/adc/adc-ti_type4.c:adc_ti_type4_adc_init", "drivers/adc/adc-ti_type4.c:adc_ti_type4_adc_setup", "drivers/adc/adc-ti_type4.c:trig_soft", "drivers/adc/adc-ti_type4.c:adc_read_multiple", "drivers/adc/adc-ti_type4.c:adc_read"]}
{"id": "C133", "title": "STM32H7 ADC: channels are converted in order and each context gets its own result, once", "statement": "Up to 16 calls of adc_init make the sequence of the channels in this order and no 17th succeeds; after any history of reads and ends of scans adc_read gives a calibrated result of the own channel or -EAGAIN, and data once a scan has ended; setup gives the channel its sample time, and the converter its resolution.", "quantifier": "every list of channels, every history, every signal", "why_tests_cant": "unbounded histories, bit fields of four sequence registers", "anchors": ["drivers/adc/adc-stm32h7xx_sar.c:adc_stm32h7xx_sar_adc_init", "drivers/adc/adc-stm32h7xx_sar.c:adc_read", "drivers/adc/adc-stm32h7xx_sar.c:adc_stm32h7xx_sar_adc_setup", "drivers/adc/adc-stm32h7xx_sar.c:adc_stm32h7xx_sar_setup"]}
{"id": "C134", "title": "clock_get_freq tells the frequency the hardware makes", "statement": "After the init of a clock driver, and every call that sets up a peripheral clock, has returned 0, clock_get_freq of each clock that was set up is the frequency the oscillators, plls and dividers make with the contents of their registers, rounded down, and the plls run within their range.", "quantifier": "every setting the calls accept, any number of calls, every clock of thirteen families", "why_tests_cant": "the frequencies, multipliers and dividers are 32-bit products; tests on a simulator see the variable, not the hardware", "anchors": ["drivers/clock/clock-mpc574xx.c:clock_mpc574xx_init", "drivers/clock/clock-mpc574xx.c:set_scalable_dividers", "drivers/clock/clock-mpc574xx.c:setup_fmpll_phi0", "drivers/clock/clock-mpc574xx.c:switch_to_fxosc", "drivers/clock/clock-mpc574xx.c:switch_to_fmpll_phi0", "drivers/clock/clock-mpc574xx.c:clock_get_freq", "drivers/clock/clock-numicro.c:clock_numicro_init", "drivers/clock/clock-numicro.c:setup_fhirc", "drivers/clock/clock-numicro.c:ckswt_osc_feclk", "drivers/clock/clock-numicro.c:clock_get_freq", "drivers/clock/clock-n76e003.c:clock_n76e003_init", "drivers/clock/clock-n76e003.c:setup_fhirc", "drivers/clock/clock-n76e003.c:ckswt_osc_feclk", "drivers/clock/clock-n76e003.c:clock_get_freq", "drivers/clock/clock-nxp_siu.c:clock_nxp_siu_init", "drivers/clock/clock-nxp_siu.c:setup_pll0", "drivers/clock/clock-nxp_siu.c:setup_pll1", "drivers/clock/clock-nxp_siu.c:pll1_lock_busywait", "drivers/clock/clock-rp2040.c:clock_rp2040_init", "drivers/clock/clock-rp2040.c:pll_config", "drivers/clock/clock-rp2040.c:rtc_config", "drivers/clock/clock-rp2040.c:clock_get_freq", "drivers/clock/clock-f28379x.c:clock_f28379x_init", "drivers/clock/clock-f28379x.c:configure_pll", "drivers/clock/clock-f28379x.c:clock_get_freq", "drivers/clock/clock-atmel_pmc.c:clock_atmel_pmc_init", "drivers/clock/clock-atmel_pmc.c:plla_setup", "drivers/clock/clock-atmel_pmc.c:clock_atmel_pmc_pck_enable", "drivers/clock/clock-atmel_pmc.c:clock_get_freq", "drivers/clock/clock-sam3x_pmc.c:clock_sam3x_pmc_init", "drivers/clock/clock-sam3x_pmc.c:clock_sam3x_pmc_enable", "drivers/clock/clock-sam3x_pmc.c:clock_get_freq", "drivers/clock/clock-pic32mx.c:clock_pic32mx_init", "drivers/clock/clock-pic32mx.c:clock_pic32mx_pbclk_enable", "drivers/clock/clock-pic32mx.c:clock_get_freq", "drivers/clock/clock-gd32vf103.c:clock_gd32vf103_init", "drivers/clock/clock-gd32vf103.c:setup_pll", "drivers/clock/clock-gd32vf103.c:setup_adc_div", "drivers/clock/clock-gd32vf103.c:clock_get_freq", "drivers/clock/clock-renesas_ra4.c:clock_renesas_ra4_init", "drivers/clock/clock-renesas_ra4.c:clock_get_freq", "drivers/clock/clock-same5x.c:clock_same5x_gclk_generator_setup", "drivers/clock/clock-same5x.c:clock_same5x_dpll_setup", "drivers/clock/clock-same5x.c:clock_same5x_setup", "drivers/clock/clock-same5x.c:clock_get_freq", "drivers/clock/clock-tinyavr.c:clock_tinyavr_init", "drivers/clock/clock-tinyavr.c:clock_get_freq", "drivers/clock/clock-cy7c6801xa.c:clock_cy7c6801xa_init", "drivers/clock/clock-cy7c6801xa.c:clock_get_freq"]}
{"id": "C135", "title": "Clock init finds a setting for every frequency the plls can make, and is always defined", "statement": "If some multiplier and dividers within the fields of the registers make the frequency asked for, init returns 0; whatever it is given, it returns, without overflow or division by 0.", "quantifier": "every oscillator frequency, every frequency asked for, every divider", "why_tests_cant": "2^64 pairs of frequencies; overflows are invisible when they happen to do no harm", "anchors": ["drivers/clock/clock-atmel_pmc.c:plla_setup", "drivers/clock/clock-rp2040.c:pll_config", "drivers/clock/clock-pic32mx.c:clock_pic32mx_init", "drivers/clock/clock-pic32mx.c:clock_pic32mx_pbclk_enable", "drivers/clock/clock-same5x.c:clock_same5x_gclk_generator_setup", "drivers/clock/clock-mpc574xx.c:clock_mpc574xx_init", "drivers/clock/clock-mpc574xx.c:setup_fmpll_phi0", "drivers/clock/clock-numicro.c:clock_numicro_init", "drivers/clock/clock-n76e003.c:clock_n76e003_init"]}
{"id": "C136", "title": "A call to a pin multiplexer makes of the pin what it asks for, and leaves the others alone", "statement": "After any history of calls to the pin multiplexer of a port, whatever the registers held before, each pin has the function, direction, pull and output type the calls for it asked for, in their order; a call for one pin changes no other; and every pin and function of the enumerations is accepted.", "quantifier": "every list of calls, every pin, every content of the registers, thirteen drivers", "why_tests_cant": "a wrong shift or mask shows on a neighbouring pin, in combination with what was there before", "anchors": ["drivers/mux/mux-stm32h7xx.c:mux_stm32h7xx_analog", "drivers/mux/mux-stm32h7xx.c:mux_stm32h7xx_output", "drivers/mux/mux-stm32h7xx.c:mux_stm32h7xx_input", "drivers/mux/mux-stm32h7xx.c:mux_stm32h7xx_alt", "drivers/mux/mux-stm32h7xx.c:mux_stm32h7xx_pull_up", "drivers/mux/mux-stm32h7xx.c:mux_stm32h7xx_pull_down", "drivers/mux/mux-stm32h7xx.c:mux_stm32h7xx_push_pull", "drivers/mux/mux-stm32h7xx.c:mux_stm32h7xx_open_drain", "drivers/mux/mux-gd32vf103.c:mux_gd32vf103_analog", "drivers/mux/mux-gd32vf103.c:mux_gd32vf103_input", "drivers/mux/mux-gd32vf103.c:mux_gd32vf103_output", "drivers/mux/mux-gd32vf103.c:mux_gd32vf103_afio", "drivers/mux/mux-atmel_pio.c:mux_atmel_pio_input", "drivers/mux/mux-atmel_pio.c:mux_atmel_pio_output", "drivers/mux/mux-atmel_pio.c:mux_atmel_pio_pull_up", "drivers/mux/mux-sam3x_pio.c:mux_sam3x_pio_input", "drivers/mux/mux-sam3x_pio.c:mux_sam3x_pio_output", "drivers/mux/mux-sam3x_pio.c:mux_sam3x_pio_pull_up", "drivers/mux/mux-same5x.c:set_pmux", "drivers/mux/mux-same5x.c:mux_same5x_input", "drivers/mux/mux-same5x.c:mux_same5x_output", "drivers/mux/mux-same5x.c:mux_same5x_pull_up", "drivers/mux/mux-same5x.c:mux_same5x_pull_down", "drivers/mux/mux-ti_f28x.c:set_mux", "drivers/mux/mux-ti_f28x.c:mux_ti_f28x_input", "drivers/mux/mux-ti_f28x.c:mux_ti_f28x_output", "drivers/mux/mux-ti_f28x.c:mux_ti_f28x_pull_up", "drivers/mux/mux-ti_f28x.c:mux_ti_f28x_set_qsel", "drivers/mux/mux-nxp_siul2.c:mux_nxp_siul2_input", "drivers/mux/mux-nxp_siul2.c:mux_nxp_siul2_output", "drivers/mux/mux-nxp_siul2.c:mux_nxp_siul2_analog", "drivers/mux/mux-nxp_siul2.c:mux_nxp_siul2_pull_up", "drivers/mux/mux-nxp_siul2.c:mux_nxp_siul2_pull_down", "drivers/mux/mux-nxp_siu.c:mux_nxp_siu_input", "drivers/mux/mux-nxp_siu.c:mux_nxp_siu_output", "drivers/mux/mux-nxp_siu.c:mux_nxp_siu_pull_up", "drivers/mux/mux-nxp_siu.c:mux_nxp_siu_pull_down", "drivers/mux/mux-rp2040.c:mux_rp2040_io", "drivers/mux/mux-rp2040.c:mux_rp2040_input", "drivers/mux/mux-rp2040.c:mux_rp2040_output", "drivers/mux/mux-rp2040.c:mux_rp2040_pull_up", "drivers/mux/mux-rp2040.c:mux_rp2040_pull_down", "drivers/mux/mux-rp2040.c:mux_rp2040_override", "drivers/mux/mux-rp2040.c:mux_rp2040_set_drive", "drivers/mux/mux-renesas_ra4.c:mux_renesas_ra4_input", "drivers/mux/mux-renesas_ra4.c:mux_renesas_ra4_output", "drivers/mux/mux-renesas_ra4.c:mux_renesas_ra4_analog", "drivers/mux/mux-renesas_ra4.c:mux_renesas_ra4_periph", "drivers/mux/mux-renesas_ra4.c:mux_renesas_ra4_pull_up", "drivers/mux/mux-avr.c:mux_avr_input", "drivers/mux/mux-avr.c:mux_avr_output", "drivers/mux/mux-tinyavr.c:mux_tinyavr_input", "drivers/mux/mux-tinyavr.c:mux_tinyavr_output", "drivers/mux/mux-tinyavr.c:mux_tinyavr_pull_up", "drivers/mux/mux-pic32mx.c:mux_pic32mx_analog", "drivers/mux/mux-pic32mx.c:mux_pic32mx_input", "drivers/mux/mux-pic32mx.c:mux_pic32mx_output", "drivers/mux/mux-pic32mx.c:mux_pic32mx_pull_up", "drivers/mux/mux-pic32mx.c:mux_pic32mx_pull_down"]}
{"id": "C137", "title": "A DMA transfer moves exactly what it was asked to, starts when asked, and is done when it has", "statement": "Every transfer the caller of dma_setup or dma_xfer can ask for is refused, or programs the channel, whatever it did before, to read and write byte_count bytes in units of size, at the addresses and with the increments asked for: from memory to memory the destination becomes a copy of the source and no other byte is written. dma_xfer needs no peripheral to start; dma_xfer_done says 0 when the last unit was moved and not before.", "quantifier": "every transfer (addresses, sizes, counts, increments), every content of the registers, every number of units moved so far, five drivers", "why_tests_cant": "off-by-one counts, wrong widths or addresses overwrite memory silently; the transfers a test makes are a handful of sizes and counts", "anchors": ["drivers/dma/dma-gd32vf103.c:dma_prepare", "drivers/dma/dma-gd32vf103.c:dma_setup", "drivers/dma/dma-gd32vf103.c:dma_xfer", "drivers/dma/dma-gd32vf103.c:dma_xfer_done", "drivers/dma/dma-stm32h7xx.c:dma_stm32h7xx_setup", "drivers/dma/dma-stm32h7xx.c:dma_setup", "drivers/dma/dma-stm32h7xx.c:dma_xfer", "drivers/dma/dma-stm32h7xx.c:dma_xfer_done", "drivers/dma/dma-same5x.c:dma_same5x_dma_init", "drivers/dma/dma-same5x.c:dma_setup", "drivers/dma/dma-same5x.c:dma_xfer", "drivers/dma/dma-same5x.c:dma_xfer_done", "drivers/dma/dma-rp2040.c:dma_r2040_init", "drivers/dma/dma-rp2040.c:dma_setup", "drivers/dma/dma-rp2040.c:dma_xfer", "drivers/dma/dma-rp2040.c:dma_xfer_done", "drivers/dma/dma-nxp_edma.c:setup_tcd", "drivers/dma/dma-nxp_edma.c:nxp_edma_data_size", "drivers/dma/dma-nxp_edma.c:dma_setup", "drivers/dma/dma-nxp_edma.c:dma_xfer", "drivers/dma/dma-nxp_edma.c:dma_xfer_done", "drivers/include/dma.h:struct dma_xfer"]}
{"id": "C138", "title": "Resets, request multiplexer and bus matrix change what they are asked to, and nothing else", "statement": "A call that returns 0 has put the peripheral in reset, or out of it with the hardware's word for it, set the request of the channel, the burst of the master, the arbitration of the slave or the base of the CAN, exactly, and left every other as it was, also when another task makes such a call; peripherals, channels, masters and slaves there are can all be set, those there are not are refused.", "quantifier": "every peripheral, channel, master, slave and value, every content of the registers, every behaviour of the hardware while it is waited for, every interleaving of two tasks", "why_tests_cant": "a field of one bit too many or few damages a neighbour that the test does not use; lost updates need an interrupt between two instructions", "anchors": ["drivers/misc/misc-rp2040_reset.c:rp2040_reset_init", "drivers/misc/misc-rp2040_reset.c:rp2040_reset", "drivers/misc/misc-rp2040_reset.c:rp2040_unreset", "drivers/misc/misc-stm32h7xx_dmamux.c:dmamux_stm32h7xx_init", "drivers/misc/misc-stm32h7xx_dmamux.c:dmamux_stm32h7xx_set_dmareq_id", "drivers/misc/misc-atsamx7x_matrix.c:atsamx7x_matrix_set_mcfg", "drivers/misc/misc-atsamx7x_matrix.c:atsamx7x_matrix_set_scfg", "drivers/misc/misc-atsamx7x_matrix.c:atsamx7x_matrix_set_can0dmaba", "drivers/misc/misc-atsamx7x_matrix.c:atsamx7x_matrix_set_can1dmaba"]}
