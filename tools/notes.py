NOTES={
'C01': dict(note='History view and generator view; C01_event_view_* tie the two together.'),
'C03': dict(note='Positive part, exactness, and refutation for every max >= 2.'),
'C10': dict(note='Documented AsiRequestQueueFullError refuted: NameError is raised.'),
'C14': dict(note='Refutes the unconditional reading of C13; exact behaviour proved.'),
'C62': dict(note='Proved for every command of the library on Linux, and for sessions of any number of commands on the four systems.'),
'C66': dict(note='Slot leak.'),
}
