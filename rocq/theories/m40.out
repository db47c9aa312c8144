python3: can't open file '/verif/rocq/theories/../mut.py': [Errno 2] No such file or directory
