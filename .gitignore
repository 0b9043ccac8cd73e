.lia.cache
.nia.cache
.nra.cache
.lra.cache
.csdp.cache
*.vo
*.vok
*.vos
*.glob
*.aux
.*.aux
Makefile
Makefile.conf
.Makefile.d
.coqdeps.d
__pycache__
