## Testing the theorems against wrong programs
`seeded/mutate.py` applies an edit to a scratch copy of the model, rebuilds everything downstream with
each failing proof replaced by an admission, and reports which theorems no longer prove;
`seeded/LOG.jsonl` has one line per attempt.
