# The project's integration tests on the model

`run.py` reads the tests in `/repo/cmd/*/*_test.go` as text (it builds and runs
nothing of the project), plays each on the Gallina model with `vm_compute`, and
compares the printed output with the one the test records.  It is a check that the
model says what the code says; it is not part of any proof.

Outcome at the last run, out of the tests that only apply files:

| current schema | MySQL | PostgreSQL | SQL Server | SQLite |
|---|---|---|---|---|
| shown by the ideal server | 44 of 48 | 27 of 27 | 32 of 32 | - |
| file of the step before | 37 of 48 | 25 of 27 | 32 of 32 | 6 of 6 |

Every difference comes from the server, not from the commands:
- MySQL, ideal: display widths the server of the tests adds (`bigint(20)`), the order
  of keys in `SHOW CREATE TABLE`, the index the server makes for a foreign key, the
  alphabetical order of `SHOW TABLES`.
- file of the step before: a file is not what a server shows (implicit NOT NULL of
  primary keys, statements of the file that alter a table, generated names).
