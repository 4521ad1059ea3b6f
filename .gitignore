rocq/Makefile*
rocq/.Makefile*
rocq/.lia.cache
*.vo
*.vok
*.vos
*.glob
*.aux
.lia.cache
.nra.cache
.nia.cache
.lia.cache
