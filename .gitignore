*.vo
*.vos
*.vok
*.glob
*.aux
.*.aux
.lia.cache
.nia.cache
.coqdeps.d
.Makefile.coq.d
*.d
rocq/Makefile
rocq/Makefile.conf
